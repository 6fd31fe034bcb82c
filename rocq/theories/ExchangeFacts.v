(** Proofs for C99. *)
From Coq Require Import Permutation.
From Verif Require Import Base HandleSpec HandleExact TypeModel TypeSpec CopyModel CopySpec CopyProofs CopyFinal SysModel CollModel SysCalls SysSpec SysLog SysReach SysAbs
  SysFacts SysFacts2 SysFacts3 SysFacts4 SysFacts6 FirstFacts ExchangeSpec.

Section ExchangeFacts.
Variable c : cfg.
Variable tj : Z -> tjunk.
Notation reach := (reach c tj).
Notation does := (does c tj).

(** Resources used by one posted operation. *)
Lemma next_left fr top h fr' top' : next_handle fr top = Some (h, fr', top') ->
  Z.of_nat (length fr') + (CAPACITY - top') = Z.of_nat (length fr) + (CAPACITY - top) - 1.
Proof.
  unfold next_handle. destruct fr as [|f r]; [destruct (_ =? _); [discriminate|]|]; intros H; injection H as <- <- <-; cbn [length]; lia.
Qed.
Lemma left_has s a : reach s a -> 0 < handles_left a -> has_handle a.
Proof.
  intros R H. unfold has_handle, next_handle, handles_left in *. destruct (a_freed a); [|discriminate].
  destruct (Z.eqb_spec (a_top a) CAPACITY); [cbn [length] in H; lia|discriminate].
Qed.
Lemma xfer_keeps b n t b' n' t' a x a' : s_xfer c b n t b' n' t' a = Ret x a' ->
  a_freed a' = a_freed a /\ a_top a' = a_top a /\ a_items a' = a_items a.
Proof. unfold s_xfer. destruct (xfer_res _ _ _ _ _ _ _ _); try discriminate. intros H. injection H as <- <-. repeat split. Qed.
Definition uses (a a' : astate) : Prop := handles_left a' = handles_left a - 1 /\ a_items a' <= a_items a + 1.
Lemma isend_uses b n t d g cm a h a' : s_isend c b n t d g cm a = Ret h a' -> uses a a'.
Proof.
  unfold s_isend, uses, handles_left. destruct (negb _); [discriminate|]. destruct (d =? _).
  - unfold s_alloc. destruct (next_handle _ _) as [[[x fr] top]|] eqn:N; [|discriminate]. intros H. injection H as <- <-.
    cbn [a_freed a_top a_items set_obj with_handles with_items with_clock logged]. pose proof (next_left _ _ _ _ _ N). lia.
  - destruct (comm_at a cm) as [k|]; [|discriminate]. destruct (first_such _ _) as [[[bf p] e]|]; unfold sbind, s_alloc;
      destruct (next_handle _ _) as [[[x fr] top]|] eqn:N; try discriminate.
    + destruct (s_xfer _ _ _ _ _ _ _ _) as [u a2| |] eqn:X; try discriminate. apply xfer_keeps in X. cbn [a_freed a_top a_items set_obj with_handles with_items with_clock logged] in X. destruct X as (X1 & X2 & X3).
      intros H. injection H as <- <-. cbn [a_freed a_top a_items set_obj with_handles with_items with_clock logged]. rewrite X1, X2, X3. pose proof (next_left _ _ _ _ _ N). lia.
    + intros H. injection H as <- <-. cbn [a_freed a_top a_items set_obj with_handles with_items with_clock logged]. pose proof (next_left _ _ _ _ _ N). lia.
Qed.
Lemma irecv_uses b n t d g cm a h a' : s_irecv c b n t d g cm a = Ret h a' -> uses a a'.
Proof.
  unfold s_irecv, uses, handles_left. destruct (negb _); [discriminate|]. destruct (d =? _).
  - unfold s_alloc. destruct (next_handle _ _) as [[[x fr] top]|] eqn:N; [|discriminate]. intros H. injection H as <- <-.
    cbn [a_freed a_top a_items set_obj with_handles with_items with_clock logged]. pose proof (next_left _ _ _ _ _ N). lia.
  - destruct (comm_at a cm) as [k|]; [|discriminate]. destruct (first_such _ _) as [[[bf p] e]|]; unfold sbind, s_alloc;
      destruct (next_handle _ _) as [[[x fr] top]|] eqn:N; try discriminate.
    + destruct (s_xfer _ _ _ _ _ _ _ _) as [u a2| |] eqn:X; try discriminate. apply xfer_keeps in X. cbn [a_freed a_top a_items set_obj with_handles with_items with_clock logged] in X. destruct X as (X1 & X2 & X3).
      intros H. injection H as <- <-. cbn [a_freed a_top a_items set_obj with_handles with_items with_clock logged]. rewrite X1, X2, X3. pose proof (next_left _ _ _ _ _ N). lia.
    + intros H. injection H as <- <-. cbn [a_freed a_top a_items set_obj with_handles with_items with_clock logged]. pose proof (next_left _ _ _ _ _ N). lia.
Qed.
Lemma post_uses cm so x s a o s' a' : does s a (post cm so x) o s' a' -> uses a a'.
Proof.
  intros (_ & _ & _ & Q & E & _). destruct x as [[|] m]; cbn [post spec] in E; unfold smap, sbind in E.
  - destruct (s_isend _ _ _ _ _ _ _ a) as [h b| |] eqn:X; try discriminate. injection E as _ <-. eapply isend_uses; eauto.
  - destruct (s_irecv _ _ _ _ _ _ _ a) as [h b| |] eqn:X; try discriminate. injection E as _ <-. eapply irecv_uses; eauto.
Qed.

Lemma bytes_same m m' rs : (forall r x, In r rs -> inside r x -> m' x = m x) -> bytes m' rs = bytes m rs.
Proof.
  unfold bytes. induction rs as [|r rs IH]; intros H; [reflexivity|]. cbn [flat_map]. f_equal.
  - apply map_ext_in. intros j Hj. apply H with r; [left; reflexivity|]. unfold upto in Hj. apply in_map_iff in Hj.
    destruct Hj as (i & <- & Hi). apply in_seq in Hi. unfold inside. lia.
  - apply IH. intros r' x Hr. apply H. right. exact Hr.
Qed.
Lemma sizes m : map snd (src_of c m) = map snd (dst_of c m).
Proof. unfold src_of, dst_of, layout. rewrite !map_map. reflexivity. Qed.

Lemma NoDup_app_snoc {A} (l : list A) x : NoDup l -> ~ In x l -> NoDup (l ++ [x]).
Proof.
  induction l as [|y l IH]; intros N I; [repeat constructor; auto|]. inversion N; subst. cbn [app]. constructor; [|apply IH; auto; intros X; apply I; right; exact X].
  rewrite in_app_iff. intros [X|[X|[]]]; [auto|]. apply I. left. congruence.
Qed.
Lemma filter_id {A} (f : A -> bool) l : (forall x, In x l -> f x = true) -> filter f l = l.
Proof. induction l as [|x l IH]; intros H; [reflexivity|]. cbn [filter]. rewrite H by (left; reflexivity). f_equal. apply IH. intros; apply H; right; auto. Qed.

Lemma other_other sd : other (other sd) = sd.
Proof. destruct sd; reflexivity. Qed.
Lemma same_side_eq x y : same_side x y = true <-> x = y.
Proof. destruct x, y; cbn; intuition congruence. Qed.
Lemma posted_app sd t l l' : posted sd t (l ++ l') = posted sd t l ++ posted sd t l'.
Proof. unfold posted. rewrite filter_app, map_app. reflexivity. Qed.
Lemma posted_in sd t l m : In m (posted sd t l) <-> In (sd, m) l /\ m_tag m = t.
Proof.
  unfold posted. rewrite in_map_iff. split.
  - intros ([x y] & <- & H). apply filter_In in H. destruct H as [H E]. apply andb_true_iff in E. destruct E as [E1 E2]. apply same_side_eq in E1. cbn [fst snd] in *.
    subst x. apply Z.eqb_eq in E2. auto.
  - intros [H E]. exists (sd, m). split; [reflexivity|]. apply filter_In. split; [exact H|]. cbn [fst snd]. apply andb_true_iff. split; [apply same_side_eq; reflexivity|apply Z.eqb_eq; exact E].
Qed.
Lemma posted_same sd m : posted sd (m_tag m) [(sd, m)] = [m].
Proof. unfold posted. cbn [filter fst snd]. rewrite (proj2 (same_side_eq sd sd) eq_refl), Z.eqb_refl. reflexivity. Qed.
Lemma posted_side sd x m t : x <> sd -> posted x t [(sd, m)] = [].
Proof. intros N. unfold posted. cbn [filter fst snd]. destruct (same_side sd x) eqn:E; [apply same_side_eq in E; congruence|reflexivity]. Qed.
Lemma posted_tag x sd m t : t <> m_tag m -> posted x t [(sd, m)] = [].
Proof. intros N. unfold posted. cbn [filter fst snd]. destruct (Z.eqb_spec (m_tag m) t); [congruence|]. rewrite andb_false_r. reflexivity. Qed.
Lemma tagged_app t l l' : tagged t (l ++ l') = tagged t l ++ tagged t l'.
Proof. apply filter_app. Qed.
Lemma tagged_in t l m : In m (tagged t l) <-> In m l /\ m_tag m = t.
Proof. unfold tagged. rewrite filter_In, Z.eqb_eq. reflexivity. Qed.
Lemma tagged_nil l : (forall t, tagged t l = []) -> l = [].
Proof. intros H. destruct l as [|m l]; [reflexivity|]. specialize (H (m_tag m)). unfold tagged in H. cbn [filter] in H. rewrite Z.eqb_refl in H. discriminate. Qed.
Lemma tagged_split : forall l t m r, tagged t l = m :: r -> exists b e, l = b ++ m :: e /\ tagged t b = [] /\ tagged t e = r.
Proof.
  induction l as [|x l IH]; intros t m r H; [discriminate|]. unfold tagged in H. cbn [filter] in H. destruct (m_tag x =? t) eqn:E.
  - injection H as -> H. exists [], l. auto.
  - destruct (IH t m r H) as (b & e & -> & H1 & H2). exists (x :: b), e. split; [reflexivity|]. split; [|exact H2]. unfold tagged. cbn [filter]. rewrite E. exact H1.
Qed.
Lemma skipn_snoc_lt {A} : forall n (l : list A) x, (n <= length l)%nat -> skipn n (l ++ [x]) = skipn n l ++ [x].
Proof. intros n l x H. rewrite skipn_app. replace (n - length l)%nat with 0%nat by lia. reflexivity. Qed.
Lemma Forall2_left {A B} (R : A -> B -> Prop) l l' x : Forall2 R l l' -> In x l -> exists y, In y l' /\ R x y.
Proof. intros F. induction F as [|a b l l' H F IH]; intros I; [destruct I|]. destruct I as [<-|I]; [exists b; split; [left; reflexivity|exact H]|]. destruct (IH I) as (y & Y1 & Y2). exists y. split; [right; exact Y1|exact Y2]. Qed.
(** Two initial parts of a list, one of them followed by [m]. *)
Lemma prefix_next {A} : forall (a b a' b' : list A) m, a ++ m :: a' = b ++ b' -> (length a < length b)%nat -> skipn (length a) b = m :: skipn (S (length a)) b.
Proof.
  induction a as [|x a IH]; intros [|y b] a' b' m E L; cbn [length] in L; try lia.
  - cbn [app] in E. injection E as -> _. reflexivity.
  - cbn [app] in E. injection E as _ E. apply (IH b a' b' m E). lia.
Qed.
Lemma prefix_incl {A} : forall (a b a' b' : list A), a ++ a' = b ++ b' -> (length b <= length a)%nat -> incl b a.
Proof.
  induction a as [|x a IH]; intros [|y b] a' b' E L; cbn [length] in L; try lia; try solve [intros z []].
  cbn [app] in E. injection E as -> E. assert (G := IH b a' b' E ltac:(lia)). intros z [<-|Hz]; [left; reflexivity|right; auto].
Qed.

Section Run.
Variables (a0 : astate) (m0 : mem) (cm so : Z) (k : acomm) (ms : list msg).
Hypothesis CO : cfg_ok c.
Hypothesis MO : mem_ok m0.
Hypothesis So : so = 0 \/ so = MPI_ANY_SOURCE.
Hypothesis OK : msgs_fit c a0 m0 k ms.
Hypothesis K0 : comm_at a0 cm = Some k.

Definition buf_of (sd : side) (m : msg) : Z := match sd with Snd => m_src m | Rcv => m_dst m end.
(** The operations posted and not matched, per side: [Q] are their messages, for every tag those the other side is behind with. *)
Definition pend_of (sd : side) (hs : list Z) (p : pend) (m : msg) : Prop :=
  In m ms /\ In (p_req p) hs /\ p_tag p = m_tag m /\ p_count p = m_count m /\ p_type p = m_type m /\ p_buf p = buf_of sd m.
Definition waits (sd : side) (done : list (side * msg)) (hs : list Z) (P : list pend) : Prop :=
  exists Q, Forall2 (pend_of sd hs) P Q /\ forall t, tagged t Q = skipn (length (posted (other sd) t done)) (posted sd t done).
Record J (done : list (side * msg)) (hs : list Z) (s : sys) (a : astate) (P : side -> list pend) : Prop := {
  j_reach : reach s a;
  j_done : forall sd m, In (sd, m) done -> In m ms;
  j_comm : comm_at a cm = Some (mkAcomm (k_uid k) (k_sends k ++ P Snd) (k_recvs k ++ P Rcv));
  j_waits : forall sd, waits sd done hs (P sd);
  j_dom : same_domain m0 (s_mem s);
  j_moved : forall m, In (Snd, m) done -> In (Rcv, m) done -> bytes (s_mem s) (dst_of c m) = bytes m0 (src_of c m);
  j_kept : forall x, (forall m r, In (Snd, m) done -> In (Rcv, m) done -> In r (dst_of c m) -> ~ inside r x) -> s_mem s x = m0 x;
  j_req : forall h, In h hs -> 1 <= h /\ a_obj a0 h = None /\ req_at a h <> None /\ (complete a h = true \/ exists sd p, In p (P sd) /\ p_req p = h);
  j_nodup : NoDup hs;
  j_rest : forall x, ~ In x hs -> x <> cm -> a_obj a x = a_obj a0 x;
  j_len : length hs = length done;
  j_left : handles_left a = handles_left a0 - Z.of_nat (length done);
  j_items : a_items a <= a_items a0 + Z.of_nat (length done)
}.

Lemma j_obj done hs s a P x o : J done hs s a P -> a_obj a0 x = Some o -> x <> cm -> a_obj a x = Some o.
Proof.
  intros H E N. rewrite (j_rest _ _ _ _ _ H); auto. intros I. apply (j_req _ _ _ _ _ H) in I. destruct I as (_ & I & _). congruence.
Qed.
Lemma j_type done hs s a P m : J done hs s a P -> In m ms -> type_at c a (m_type m) = Some (m_ts m).
Proof.
  intros H I. pose proof (mo_type _ _ _ _ (mf_each _ _ _ _ _ OK m I)) as T. unfold type_at in *. destruct (_ <? 0); [exact T|].
  destruct (a_obj a0 (m_type m)) as [[ | |t]|] eqn:E; try discriminate. rewrite (j_obj _ _ _ _ _ _ _ H E); [exact T|].
  intros X. unfold comm_at in K0. rewrite <- X, E in K0. discriminate.
Qed.
Lemma cm_not done hs s a P : J done hs s a P -> ~ In cm hs.
Proof. intros H I. apply (j_req _ _ _ _ _ H) in I. destruct I as (_ & I & _). unfold comm_at in K0. rewrite I in K0. discriminate. Qed.
Lemma side_line sd done hs s a P : J done hs s a P -> forall k', comm_at a cm = Some k' -> line sd k' = line sd k ++ P sd.
Proof. intros H k' E. rewrite (j_comm _ _ _ _ _ H) in E. injection E as <-. destruct sd; reflexivity. Qed.

Lemma goes_tag sd m m' : In m ms -> In m' ms -> goes_with sd (m_tag m) (m_tag m') = true <-> m_tag m = m_tag m'.
Proof.
  intros I I'. pose proof (mf_any _ _ _ _ _ OK m I). pose proof (mf_any _ _ _ _ _ OK m' I').
  unfold goes_with, accepts. destruct sd; rewrite orb_true_iff, !Z.eqb_eq; intuition congruence.
Qed.

(** The message's transfer, in the present memory. *)
Lemma j_bufs done hs s a P m : J done hs s a P -> In m ms -> buffers_ok (s_mem s) (src_of c m) (dst_of c m).
Proof.
  intros H I. destruct (mf_each _ _ _ _ _ OK m I) as [_ _ _ L1 L2 PA]. unfold buffers_ok.
  rewrite (layout_sizes_reads _ _ (sizes m)). pose proof (j_dom _ _ _ _ _ H) as SD.
  split; [eapply live_domain; eauto|]. split; [eapply live_domain; eauto|]. split; [apply (mf_sources _ _ _ _ _ OK); auto|exact PA].
Qed.

(** Memory after the transfer. *)
Lemma j_move done hs s a P sd m m' : J done hs s a P -> In m ms -> In (other sd, m) done -> ~ In (sd, m) done ->
  same_domain (s_mem s) m' -> copied (s_mem s) m' (src_of c m) (dst_of c m) ->
  same_domain m0 m' /\
  (forall x, In (Snd, x) (done ++ [(sd, m)]) -> In (Rcv, x) (done ++ [(sd, m)]) -> bytes m' (dst_of c x) = bytes m0 (src_of c x)) /\
  (forall x, (forall y r, In (Snd, y) (done ++ [(sd, m)]) -> In (Rcv, y) (done ++ [(sd, m)]) -> In r (dst_of c y) -> ~ inside r x) -> m' x = m0 x).
Proof.
  intros H I Io In_ SD Cp. split; [|split].
  - intros x. rewrite (j_dom _ _ _ _ _ H x). apply SD.
  - assert (Src : bytes (s_mem s) (src_of c m) = bytes m0 (src_of c m)).
    { apply bytes_same. intros r x Hr Hx. apply (j_kept _ _ _ _ _ H). intros y r' Hy _ Hr' Hx'.
      exact (mf_sources _ _ _ _ _ OK m y I (j_done _ _ _ _ _ H _ _ Hy) r r' Hr Hr' x (conj Hx Hx')). }
    intros x Hs Hr. rewrite in_app_iff in Hs, Hr. cbn [In] in Hs, Hr.
    assert (D : x = m \/ (In (Snd, x) done /\ In (Rcv, x) done)).
    { destruct Hs as [Hs|[E|[]]]; [|left; congruence]. destruct Hr as [Hr|[E|[]]]; [auto|left; congruence]. }
    destruct D as [->|[Ds Dr]].
    + rewrite (bytes_copied _ _ _ _ (sizes m) Cp). exact Src.
    + rewrite <- (j_moved _ _ _ _ _ H x Ds Dr). apply bytes_same. intros r y Hr' Hy. apply (proj2 Cp).
      intros d Hd Hy'. assert (Ix : In x ms) by (eapply j_done; eauto).
      refine (mf_dests _ _ _ _ _ OK x m Ix I _ r d Hr' Hd y (conj Hy Hy')). intros ->. apply In_. destruct sd; assumption.
  - intros x Hx. rewrite (proj2 Cp).
    + apply (j_kept _ _ _ _ _ H). intros y r Ys Yr. apply Hx; apply in_or_app; left; assumption.
    + intros d Hd. apply Hx with m; auto.
      * destruct sd; [apply in_or_app; right; left; reflexivity|apply in_or_app; left; exact Io].
      * destruct sd; [apply in_or_app; left; exact Io|apply in_or_app; right; left; reflexivity].
Qed.

Lemma pend_more sd hs h P Q : Forall2 (pend_of sd hs) P Q -> Forall2 (pend_of sd (hs ++ [h])) P Q.
Proof.
  intros F. induction F as [|p m P Q H F IH]; constructor; auto. destruct H as (H1 & H2 & H3). split; [exact H1|]. split; [apply in_or_app; auto|exact H3].
Qed.
(** What is known when the operation [(sd, m)] is the next one. *)
Section Next.
Variables (done rest : list (side * msg)) (sd : side) (m : msg).
Hypothesis IO : in_order ms (done ++ (sd, m) :: rest).
Notation A := (posted sd (m_tag m) done).
Notation B := (posted (other sd) (m_tag m) done).
Lemma next_own : exists a', A ++ m :: a' = tagged (m_tag m) ms.
Proof.
  exists (posted sd (m_tag m) rest). rewrite <- (IO sd (m_tag m)). change ((sd, m) :: rest) with ([(sd, m)] ++ rest). rewrite !posted_app, posted_same. reflexivity.
Qed.
Lemma next_other : exists b', B ++ b' = tagged (m_tag m) ms.
Proof. rewrite <- (IO (other sd) (m_tag m)), posted_app. eauto. Qed.
Lemma next_in : In m ms.
Proof. destruct next_own as (a' & E). apply (tagged_in (m_tag m)). rewrite <- E. apply in_or_app. right. left. reflexivity. Qed.
Lemma next_new : ~ In (sd, m) done.
Proof.
  intros H. destruct next_own as (a' & E). assert (N : NoDup (tagged (m_tag m) ms)) by (apply NoDup_filter; exact (mf_once _ _ _ _ _ OK)).
  rewrite <- E in N. apply NoDup_remove_2 in N. apply N. apply in_or_app. left. apply posted_in. auto.
Qed.
Lemma next_waits : (length A < length B)%nat -> In (other sd, m) done /\ skipn (length A) B = m :: skipn (S (length A)) B.
Proof.
  intros L. destruct next_own as (a' & E). destruct next_other as (b' & E'). rewrite <- E' in E. pose proof (prefix_next _ _ _ _ _ E L) as X. split; [|exact X].
  apply (posted_in (other sd) (m_tag m)). rewrite <- (firstn_skipn (length A) B), X. apply in_or_app. right. left. reflexivity.
Qed.
Lemma next_first : (length B <= length A)%nat -> ~ In (other sd, m) done.
Proof.
  intros L H. destruct next_own as (a' & E). destruct next_other as (b' & E'). rewrite <- E' in E. apply next_new. apply (posted_in sd (m_tag m)).
  apply (prefix_incl _ _ _ _ E L). apply posted_in. auto.
Qed.
End Next.

(** The partner is waiting: the message is moved. *)
Lemma step_paired done rest hs s a P sd m : J done hs s a P -> in_order ms (done ++ (sd, m) :: rest) ->
  (length (posted sd (m_tag m) done) < length (posted (other sd) (m_tag m) done))%nat ->
  0 < handles_left a -> room a ->
  exists h s' a' P', does s a (post cm so (sd, m)) (VInt h) s' a' /\ J (done ++ [(sd, m)]) (hs ++ [h]) s' a' P'.
Proof.
  intros H IO LT HL Rm. pose proof (j_reach _ _ _ _ _ H) as R. pose proof (left_has _ _ R HL) as HH.
  pose proof (next_in _ _ _ _ IO) as I. pose proof (next_new _ _ _ _ IO) as Nd. destruct (next_waits _ _ _ _ IO LT) as [Od NX].
  destruct (j_waits _ _ _ _ _ H (other sd)) as (Q & FQ & TQ). rewrite other_other in TQ.
  destruct (tagged_split Q (m_tag m) m _ (eq_trans (TQ (m_tag m)) NX)) as (Qb & Qe & EQ & Tb & Te). rewrite EQ in FQ.
  apply Forall2_app_inv_r in FQ. destruct FQ as (b & l & Fb & Fl & EP). inversion Fl as [|p m1 e Qe1 Fp Fe E1 E2]. subst l m1 Qe1.
  assert (Ip : In p (P (other sd))) by (rewrite EP; apply in_or_app; right; left; reflexivity).
  destruct Fp as (_ & Rp & Tp & C1 & Ty1 & B1).
  set (k' := mkAcomm (k_uid k) (k_sends k ++ P Snd) (k_recvs k ++ P Rcv)). assert (Ek : comm_at a cm = Some k') by apply (j_comm _ _ _ _ _ H).
  pose proof (side_line (other sd) _ _ _ _ _ H k' Ek) as Lk. rewrite EP, app_assoc in Lk.
  assert (Ea : earliest sd (m_tag m) k' (line (other sd) k ++ b) p e).
  { split; [exact Lk|]. split; [rewrite Tp; apply goes_tag; auto|]. intros q Hq. apply in_app_or in Hq. destruct Hq as [Hq|Hq].
    - apply (mf_alone _ _ _ _ _ OK sd m q I Hq).
    - destruct (Forall2_left _ _ _ q Fb Hq) as (m1 & M1 & I1 & _ & T1 & _).
      rewrite T1. apply not_true_iff_false. rewrite (goes_tag sd m m1 I I1). intros E.
      assert (X : In m1 (tagged (m_tag m) Qb)) by (apply tagged_in; auto). rewrite Tb in X. exact X. }
  destruct (mf_each _ _ _ _ _ OK m I) as [_ TX FT _ _ _].
  assert (MO' : mem_ok (s_mem s)) by (eapply mem_ok_domain; [exact (j_dom _ _ _ _ _ H)|exact MO]).
  pose proof (j_type _ _ _ _ _ m H I) as T. pose proof (j_bufs _ _ _ _ _ m H I) as B.
  assert (exists m' h s' a', same_domain (s_mem s) m' /\ copied (s_mem s) m' (src_of c m) (dst_of c m) /\ does s a (post cm so (sd, m)) (VInt h) s' a' /\
            s_mem s' = m' /\ paired sd a cm k' (a_clock a) h (m_tag m) (line (other sd) k ++ b) p e m' a') as (m' & h & s' & a' & SD & Cp & Do & Em & PR).
  { destruct sd; cbn [other] in B1.
    - destruct (C31_lemma s a (m_src m) (m_count m) (m_type m) (m_ts m) (m_ext m) (m_tag m) cm k' _ p e (m_ts m) (m_ext m) R HH Rm Ek Ea CO MO' T) as (m' & SD & Cp & (h & s' & a' & Do & Em & PR) & _).
      + rewrite Ty1. exact T.
      + rewrite C1. exact TX.
      + intros _. rewrite C1. intros i x y E1 E2. congruence.
      + exact FT.
      + rewrite C1. exact FT.
      + rewrite C1, B1. exact B.
      + rewrite C1, B1 in Cp. eauto 10.
    - destruct (C32_first_lemma s a (m_dst m) (m_count m) (m_type m) (m_ts m) (m_ext m) so (m_tag m) cm k' _ p e R HH Rm Ek So Ea CO MO' T TX FT) as (m' & SD & Cp & (h & s' & a' & Do & Em & PR) & _).
      + rewrite B1. exact B.
      + rewrite B1 in Cp. eauto 10. }
  exists h, s', a', (fun x => if same_side x sd then P sd else b ++ e). split; [exact Do|].
  destruct (j_move _ _ _ _ _ sd m m' H I Od Nd SD Cp) as (SD' & Mv & Kp).
  pose proof (proj1 (pr_fresh _ _ _ _ _ _ _ _ _ _ _ _ PR)) as F1. pose proof (proj2 (pr_fresh _ _ _ _ _ _ _ _ _ _ _ _ PR)) as F2.
  assert (Nh : ~ In h hs).
  { intros Hh. destruct (j_req _ _ _ _ _ H h Hh) as (_ & _ & X & _). apply X. unfold req_at. rewrite F2. reflexivity. }
  assert (Ncm : h <> cm) by (intros ->; unfold comm_at in Ek; rewrite F2 in Ek; discriminate).
  pose proof (pr_rest _ _ _ _ _ _ _ _ _ _ _ _ PR) as RS.
  pose proof (post_uses _ _ _ _ _ _ _ _ Do) as [U1 U2].
  assert (SS : forall x y, same_side x y = true <-> x = y) by (intros [|] [|]; cbn; intuition congruence).
  constructor.
  - apply Do.
  - intros x y Hx. apply in_app_or in Hx. destruct Hx as [Hx|[E|[]]]; [eapply j_done; eauto|congruence].
  - rewrite (pr_comm _ _ _ _ _ _ _ _ _ _ _ _ PR). rewrite app_assoc_reverse. destruct sd; reflexivity.
  - intros x. destruct (same_side x sd) eqn:E.
    + apply SS in E. subst x. destruct (j_waits _ _ _ _ _ H sd) as (Q' & FQ' & TQ'). exists Q'. split; [apply pend_more; exact FQ'|].
      intros t. rewrite TQ', !posted_app, (posted_side sd (other sd)), app_nil_r by (destruct sd; discriminate).
      destruct (Z.eq_dec t (m_tag m)) as [->|NE]; [|rewrite posted_tag, app_nil_r by exact NE; reflexivity].
      rewrite posted_same. rewrite !skipn_all2; [reflexivity|rewrite app_length; cbn [length]; lia|lia].
    + assert (x = other sd) by (destruct x, sd; try reflexivity; discriminate). subst x. exists (Qb ++ Qe). split.
      * apply pend_more. apply Forall2_app; [exact Fb|exact Fe].
      * rewrite other_other. intros t. rewrite !posted_app, (posted_side sd (other sd)), app_nil_r by (destruct sd; discriminate).
        destruct (Z.eq_dec t (m_tag m)) as [->|NE].
        -- rewrite posted_same, tagged_app, Tb, Te, app_length. cbn [length app]. rewrite Nat.add_1_r. reflexivity.
        -- rewrite posted_tag, app_nil_r by exact NE. rewrite <- TQ, EQ, !tagged_app. f_equal. unfold tagged. cbn [filter]. destruct (Z.eqb_spec (m_tag m) t); [congruence|reflexivity].
  - rewrite Em. exact SD'.
  - rewrite Em. exact Mv.
  - rewrite Em. exact Kp.
  - intros x Hx. apply in_app_or in Hx. destruct Hx as [Hx|[<-|[]]].
    + destruct (j_req _ _ _ _ _ H x Hx) as (X1 & X2 & X3 & X4). split; [exact X1|]. split; [exact X2|].
      destruct (Z.eq_dec x (p_req p)) as [->|NE].
      * pose proof (pr_partner _ _ _ _ _ _ _ _ _ _ _ _ PR) as Y. split; [rewrite Y; discriminate|]. left. unfold complete. rewrite Y.
        apply orb_true_iff. right. destruct sd; reflexivity.
      * assert (Y : a_obj a' x = a_obj a x) by (apply RS; [congruence| |exact NE]; intros ->; apply (cm_not _ _ _ _ _ H); exact Hx).
        unfold complete, req_at in *. rewrite Y. split; [exact X3|]. destruct X4 as [X4|(sd1 & p1 & Hp1 & E1)]; [left; exact X4|right].
        exists sd1, p1. split; [|exact E1]. destruct (same_side sd1 sd) eqn:E; [apply SS in E; subst; exact Hp1|].
        assert (sd1 = other sd) by (destruct sd1, sd; try reflexivity; discriminate). subst sd1. rewrite EP in Hp1. apply in_app_or in Hp1. cbn [In] in Hp1.
        apply in_or_app. destruct Hp1 as [Hp1|[<-|Hp1]]; auto. congruence.
    + split; [exact F1|]. split.
      * rewrite <- (j_rest _ _ _ _ _ H h Nh Ncm). exact F2.
      * pose proof (pr_req _ _ _ _ _ _ _ _ _ _ _ _ PR) as Y. split; [rewrite Y; discriminate|]. left. unfold complete. rewrite Y.
        apply orb_true_iff. right. destruct sd; reflexivity.
  - apply NoDup_app_snoc; [exact (j_nodup _ _ _ _ _ H)|exact Nh].
  - intros x Hx Nx. rewrite in_app_iff in Hx. cbn [In] in Hx. rewrite RS; [apply (j_rest _ _ _ _ _ H); tauto|intros ->; tauto|exact Nx|intros ->; tauto].
  - rewrite !app_length, (j_len _ _ _ _ _ H). reflexivity.
  - rewrite U1, (j_left _ _ _ _ _ H), app_length. cbn [length]. lia.
  - rewrite app_length. cbn [length]. pose proof (j_items _ _ _ _ _ H). lia.
Qed.

(** Nobody is waiting: the operation is queued. *)
Lemma step_queued done rest hs s a P sd m : J done hs s a P -> in_order ms (done ++ (sd, m) :: rest) ->
  (length (posted (other sd) (m_tag m) done) <= length (posted sd (m_tag m) done))%nat ->
  0 < handles_left a -> room a ->
  exists h s' a' P', does s a (post cm so (sd, m)) (VInt h) s' a' /\ J (done ++ [(sd, m)]) (hs ++ [h]) s' a' P'.
Proof.
  intros H IO GE HL Rm. pose proof (j_reach _ _ _ _ _ H) as R. pose proof (left_has _ _ R HL) as HH.
  pose proof (next_in _ _ _ _ IO) as I. pose proof (next_new _ _ _ _ IO) as Nd. pose proof (next_first _ _ _ _ IO GE) as Od.
  set (k' := mkAcomm (k_uid k) (k_sends k ++ P Snd) (k_recvs k ++ P Rcv)). assert (Ek : comm_at a cm = Some k') by apply (j_comm _ _ _ _ _ H).
  pose proof (side_line (other sd) _ _ _ _ _ H k' Ek) as Lk. pose proof (side_line sd _ _ _ _ _ H k' Ek) as Lo.
  assert (NG : none_goes sd (m_tag m) k').
  { intros q Hq. rewrite Lk in Hq. apply in_app_or in Hq. destruct Hq as [Hq|Hq].
    - apply (mf_alone _ _ _ _ _ OK sd m q I Hq).
    - destruct (j_waits _ _ _ _ _ H (other sd)) as (Q & FQ & TQ). destruct (Forall2_left _ _ _ q FQ Hq) as (m1 & M1 & I1 & _ & T1 & _).
      rewrite T1. apply not_true_iff_false. rewrite (goes_tag sd m m1 I I1). intros E.
      assert (X : In m1 (tagged (m_tag m) Q)) by (apply tagged_in; auto). rewrite TQ, other_other, skipn_all2 in X by exact GE. exact X. }
  assert (exists h s' a', does s a (post cm so (sd, m)) (VInt h) s' a' /\ queued sd a cm k' (mkPend (a_clock a) h (buf_of sd m) (m_count m) (m_type m) (m_tag m)) a') as (h & s' & a' & Do & QD).
  { destruct sd.
    - destruct (C10_lemma s a (m_src m) (m_count m) (m_type m) (m_tag m) cm k' R HH Rm Ek) as [_ X]. apply X. exact NG.
    - destruct (C09_lemma s a (m_dst m) (m_count m) (m_type m) so (m_tag m) cm k' R HH Rm Ek So) as [_ X]. apply X. exact NG. }
  set (p := mkPend (a_clock a) h (buf_of sd m) (m_count m) (m_type m) (m_tag m)) in *.
  exists h, s', a', (fun x => if same_side x sd then P sd ++ [p] else P x). split; [exact Do|].
  pose proof (proj1 (qd_fresh _ _ _ _ _ _ QD)) as F1. pose proof (proj2 (qd_fresh _ _ _ _ _ _ QD)) as F2. cbn [p p_req] in F1, F2.
  assert (Nh : ~ In h hs).
  { intros Hh. destruct (j_req _ _ _ _ _ H h Hh) as (_ & _ & X & _). apply X. unfold req_at. rewrite F2. reflexivity. }
  assert (Ncm : h <> cm) by (intros ->; unfold comm_at in Ek; rewrite F2 in Ek; discriminate).
  pose proof (qd_rest _ _ _ _ _ _ QD) as RS. cbn [p p_req] in RS.
  pose proof (post_uses _ _ _ _ _ _ _ _ Do) as [U1 U2].
  assert (SS : forall x y, same_side x y = true <-> x = y) by (intros [|] [|]; cbn; intuition congruence).
  assert (Mm : s_mem s' = s_mem s).
  { destruct Do as (_ & _ & R' & _). rewrite (ab_mem (reach_abs _ _ R')), (ab_mem (reach_abs _ _ R)). apply (qd_mem _ _ _ _ _ _ QD). }
  assert (DD : forall x, In (Snd, x) (done ++ [(sd, m)]) -> In (Rcv, x) (done ++ [(sd, m)]) -> In (Snd, x) done /\ In (Rcv, x) done).
  { intros x Hs Hr. rewrite in_app_iff in Hs, Hr. cbn [In] in Hs, Hr. destruct Hs as [Hs|[E|[]]], Hr as [Hr|[E'|[]]]; auto.
    - injection E' as -> ->. contradiction.
    - injection E as -> ->. contradiction.
    - congruence. }
  constructor.
  - apply Do.
  - intros x y Hx. apply in_app_or in Hx. destruct Hx as [Hx|[E|[]]]; [eapply j_done; eauto|congruence].
  - rewrite (qd_comm _ _ _ _ _ _ QD). unfold set_line. rewrite Lo. destruct sd; cbn [same_side line k' k_uid k_sends k_recvs]; rewrite app_assoc_reverse; reflexivity.
  - intros x. destruct (same_side x sd) eqn:E.
    + apply SS in E. subst x. destruct (j_waits _ _ _ _ _ H sd) as (Q & FQ & TQ). exists (Q ++ [m]). split.
      * apply Forall2_app; [apply pend_more; exact FQ|]. constructor; [|constructor]. split; [exact I|]. split; [apply in_or_app; right; left; reflexivity|repeat split].
      * intros t. rewrite tagged_app, TQ, !posted_app, (posted_side sd (other sd)), app_nil_r by (destruct sd; discriminate). unfold tagged. cbn [filter].
        destruct (Z.eqb_spec (m_tag m) t) as [<-|NE]; [|rewrite (posted_tag sd), !app_nil_r by congruence; reflexivity].
        rewrite posted_same. symmetry. apply skipn_snoc_lt. exact GE.
    + assert (x = other sd) by (destruct x, sd; try reflexivity; discriminate). subst x. destruct (j_waits _ _ _ _ _ H (other sd)) as (Q & FQ & TQ). exists Q. split; [apply pend_more; exact FQ|].
      rewrite other_other in *. intros t. rewrite TQ, !posted_app, (posted_side sd (other sd)), app_nil_r by (destruct sd; discriminate).
      destruct (Z.eq_dec t (m_tag m)) as [->|NE]; [|rewrite posted_tag, app_nil_r by exact NE; reflexivity].
      rewrite posted_same, !skipn_all2; [reflexivity|rewrite app_length; cbn [length]; lia|exact GE].
  - rewrite Mm. exact (j_dom _ _ _ _ _ H).
  - rewrite Mm. intros x X1 X2. destruct (DD x X1 X2). apply (j_moved _ _ _ _ _ H); auto.
  - rewrite Mm. intros x X. apply (j_kept _ _ _ _ _ H). intros y r Y1 Y2. apply X; apply in_or_app; auto.
  - intros x Hx. apply in_app_or in Hx. destruct Hx as [Hx|[<-|[]]].
    + destruct (j_req _ _ _ _ _ H x Hx) as (X1 & X2 & X3 & X4). split; [exact X1|]. split; [exact X2|].
      assert (Y : a_obj a' x = a_obj a x) by (apply RS; [congruence|]; intros ->; apply (cm_not _ _ _ _ _ H); exact Hx).
      unfold complete, req_at in *. rewrite Y. split; [exact X3|]. destruct X4 as [X4|(sd1 & p1 & Hp1 & E1)]; [left; exact X4|right].
      exists sd1, p1. split; [|exact E1]. destruct (same_side sd1 sd) eqn:E; [apply SS in E; subst; apply in_or_app; auto|exact Hp1].
    + split; [exact F1|]. split; [rewrite <- (j_rest _ _ _ _ _ H h Nh Ncm); exact F2|].
      pose proof (qd_req _ _ _ _ _ _ QD) as Y. cbn [p p_req] in Y. split; [rewrite Y; discriminate|]. right. exists sd, p. split; [|reflexivity].
      destruct sd; apply in_or_app; right; left; reflexivity.
  - apply NoDup_app_snoc; [exact (j_nodup _ _ _ _ _ H)|exact Nh].
  - intros x Hx Nx. rewrite in_app_iff in Hx. cbn [In] in Hx. rewrite RS; [apply (j_rest _ _ _ _ _ H); tauto|intros ->; tauto|exact Nx].
  - rewrite !app_length, (j_len _ _ _ _ _ H). reflexivity.
  - rewrite U1, (j_left _ _ _ _ _ H), app_length. cbn [length]. lia.
  - rewrite app_length. cbn [length]. pose proof (j_items _ _ _ _ _ H). lia.
Qed.

Lemma run_all : forall rest done hs s a P, J done hs s a P -> in_order ms (done ++ rest) ->
  Z.of_nat (length (done ++ rest)) <= handles_left a0 -> a_items a0 + Z.of_nat (length (done ++ rest)) <= INT_MAX ->
  exists hs' s' a' P', gives c tj (map (post cm so) rest) s a (map VInt hs') s' a' /\ J (done ++ rest) (hs ++ hs') s' a' P'.
Proof.
  induction rest as [|[sd m] rest IH]; intros done hs s a P H IO HL HI.
  - exists [], s, a, P. split; [constructor|]. rewrite !app_nil_r. exact H.
  - rewrite app_length in HL, HI. cbn [length] in HL, HI.
    assert (H1 : 0 < handles_left a) by (rewrite (j_left _ _ _ _ _ H); lia).
    assert (H2 : room a) by (unfold room; pose proof (j_items _ _ _ _ _ H); lia).
    assert (exists h s' a' P', does s a (post cm so (sd, m)) (VInt h) s' a' /\ J (done ++ [(sd, m)]) (hs ++ [h]) s' a' P') as (h & s1 & a1 & P1 & Do & H').
    { destruct (le_lt_dec (length (posted (other sd) (m_tag m) done)) (length (posted sd (m_tag m) done))) as [X|X]; [eapply step_queued; eauto|eapply step_paired; eauto]. }
    destruct (IH (done ++ [(sd, m)]) (hs ++ [h]) s1 a1 P1 H') as (hs' & s' & a' & P' & Rn & HJ).
    + rewrite <- app_assoc. exact IO.
    + rewrite <- app_assoc, app_length. cbn [app length]. lia.
    + rewrite <- app_assoc, app_length. cbn [app length]. lia.
    + rewrite <- !app_assoc in HJ. exists (h :: hs'), s', a', P'. split; [cbn [map]; econstructor; eauto|exact HJ].
Qed.
End Run.

Theorem C99_ordered_lemma s a cm so k ms prog sts : reach s a -> cfg_ok c -> mem_ok (s_mem s) -> comm_at a cm = Some k -> so = 0 \/ so = MPI_ANY_SOURCE ->
  msgs_fit c a (s_mem s) k ms -> in_order ms prog ->
  let n := Z.of_nat (length prog) in
  n <= handles_left a -> a_items a + n <= INT_MAX -> n <= Z.of_nat (length sts) ->
  exists hs s1 a1, gives c tj (map (post cm so) prog) s a (map VInt hs) s1 a1 /\
    delivered c ms (s_mem s) (s_mem s1) /\ comm_at a1 cm = Some k /\
    exists sts' s2 a2, does s1 a1 (KWaitall n hs (SSAt sts)) (VAll (map (fun _ => MPI_REQUEST_NULL) hs) 1 sts') s2 a2 /\
      s_mem s2 = s_mem s1 /\ forall x, a_obj a2 x = a_obj a x.
Proof.
  intros R CO MO K0 So OK IO n HL HI HS.
  assert (J0 : J a (s_mem s) cm k ms [] [] s a (fun _ => [])).
  { constructor.
    - exact R.
    - intros sd m [].
    - rewrite K0, !app_nil_r. destruct k; reflexivity.
    - intros sd. exists []. split; [constructor|reflexivity].
    - intros x. reflexivity.
    - intros m [].
    - intros x _. reflexivity.
    - intros h [].
    - constructor.
    - reflexivity.
    - reflexivity.
    - cbn [length]. lia.
    - cbn [length]. lia. }
  assert (IN : forall sd m, In m ms -> In (sd, m) prog).
  { intros sd m I. apply (posted_in sd (m_tag m)). rewrite IO. apply tagged_in. auto. }
  destruct (run_all a (s_mem s) cm so k ms CO MO So OK K0 prog [] [] s a _ J0) as (hs & s1 & a1 & P & Rn & HJ); auto.
  cbn [app] in HJ. exists hs, s1, a1. split; [exact Rn|].
  assert (PE : forall sd, P sd = []).
  { intros sd. destruct (j_waits _ _ _ _ _ _ _ _ _ _ HJ sd) as (Q & FQ & TQ). assert (EQ : Q = []).
    { apply tagged_nil. intros t. rewrite TQ, !IO. apply skipn_all2. lia. }
    rewrite EQ in FQ. inversion FQ. reflexivity. }
  assert (KE : comm_at a1 cm = Some k).
  { rewrite (j_comm _ _ _ _ _ _ _ _ _ _ HJ), !PE, !app_nil_r. destruct k; reflexivity. }
  split; [split|].
  - intros m I. apply (j_moved _ _ _ _ _ _ _ _ _ _ HJ); auto.
  - intros x X. apply (j_kept _ _ _ _ _ _ _ _ _ _ HJ). intros m r I _. apply X. eapply (j_done _ _ _ _ _ _ _ _ _ _ HJ); eauto.
  - split; [exact KE|].
    assert (RQ : forall h, In h hs -> 1 <= h /\ a_obj a h = None /\ exists q, req_at a1 h = Some q /\ report q <> None).
    { intros h X. destruct (j_req _ _ _ _ _ _ _ _ _ _ HJ h X) as (X1 & X2 & X3 & [X4|(sd & p & Y & _)]); [|rewrite PE in Y; destruct Y].
      split; [exact X1|]. split; [exact X2|]. destruct (req_at a1 h) as [q|] eqn:E; [|congruence]. exists q. split; [reflexivity|].
      unfold complete in X4. rewrite E in X4. destruct (Z.eqb_spec h MPI_REQUEST_NULL) as [Z0|_]; [unfold MPI_REQUEST_NULL in Z0; lia|].
      cbn [orb] in X4. destruct (report q); [discriminate|discriminate X4]. }
    assert (R1 : reach s1 a1) by apply (j_reach _ _ _ _ _ _ _ _ _ _ HJ).
    assert (LE : firstn (Z.to_nat n) hs = hs) by (rewrite <- (firstn_all hs) at 2; f_equal; rewrite (j_len _ _ _ _ _ _ _ _ _ _ HJ); unfold n; lia).
    assert (FE : filter (fun r => negb (r =? MPI_REQUEST_NULL)) hs = hs).
    { apply filter_id. intros h X. destruct (RQ h X) as (X1 & _). apply negb_true_iff, Z.eqb_neq. unfold MPI_REQUEST_NULL. lia. }
    assert (IT : 0 <= a_items a).
    { destruct (ab_ex (reach_abs _ _ R)) as (lv & f & ids & g & _ & _ & LI & _). rewrite <- (ab_items (reach_abs _ _ R)), (ListProofs.li_ic LI). apply ListProofs.sumlen_nonneg. }
    assert (LR : legal_reqs n hs a1).
    { unfold legal_reqs. rewrite LE, FE. split; [rewrite (j_len _ _ _ _ _ _ _ _ _ _ HJ); unfold n; lia|]. split; [lia|]. split; [|exact (j_nodup _ _ _ _ _ _ _ _ _ _ HJ)].
      intros h X. right. destruct (RQ h X) as (_ & _ & q & E & _). eauto. }
    destruct (C25_lemma s1 a1 n hs (SSAt sts) R1 LR) as [X _]; [exact HS|]. rewrite LE in X.
    destruct X as (s2 & a2 & sts' & Do & _ & Rl).
    { intros h Y. right. destruct (RQ h Y) as (_ & _ & q & E & Rq). exists q. split; [exact E|]. apply (finished_report a1 h); auto. eapply reach_inv; eauto. }
    rewrite FE in Rl. destruct Rl as (Rl1 & Rl2 & Rl3 & _). exists sts', s2, a2. split.
    + replace (skipn (Z.to_nat n) hs) with (@nil Z) in Do; [rewrite app_nil_r in Do; exact Do|].
      symmetry. apply skipn_all2. rewrite (j_len _ _ _ _ _ _ _ _ _ _ HJ). unfold n. lia.
    + split.
      * destruct Do as (_ & _ & R2 & _). rewrite (ab_mem (reach_abs _ _ R2)), (ab_mem (reach_abs _ _ R1)). exact Rl3.
      * intros x. destruct (in_dec Z.eq_dec x hs) as [X|X].
        -- rewrite (Rl1 x X). symmetry. apply (RQ x X).
        -- rewrite (Rl2 x X). destruct (Z.eq_dec x cm) as [->|NC]; [|apply (j_rest _ _ _ _ _ _ _ _ _ _ HJ); auto].
           unfold comm_at in K0, KE. destruct (a_obj a cm) as [[]|], (a_obj a1 cm) as [[]|]; congruence.
Qed.

(** Messages with different tags: every order of the calls will do. *)
Lemma tag_inj ms : NoDup (map m_tag ms) -> forall m m', In m ms -> In m' ms -> m_tag m = m_tag m' -> m = m'.
Proof.
  intros ND m m'. revert ND. induction ms as [|x l IH]; intros ND; [intros []|].
  cbn [map] in ND. inversion ND as [|? ? N1 N2]; subst. intros [<-|H] [<-|H'] E; auto.
  - exfalso. apply N1. rewrite E. apply in_map. exact H'.
  - exfalso. apply N1. rewrite <- E. apply in_map. exact H.
Qed.
Lemma fit_ok a m0 k ms : msgs_ok c a m0 k ms -> msgs_fit c a m0 k ms.
Proof.
  intros [H1 H2 H3 H4 H5 H6]. constructor; auto; [eapply NoDup_map_inv; exact H2|]. intros m m' I I' N. apply H6; auto.
  intros E. apply N. apply (tag_inj ms H2); auto.
Qed.
Lemma perm_filter {A} (f : A -> bool) l l' : Permutation l l' -> Permutation (filter f l) (filter f l').
Proof.
  intros P. induction P; cbn [filter]; auto.
  - destruct (f x); auto.
  - destruct (f x), (f y); auto; apply perm_swap.
  - etransitivity; eauto.
Qed.
Lemma tagged_one ms t : NoDup (map m_tag ms) -> (length (tagged t ms) <= 1)%nat.
Proof.
  intros ND. assert (N : NoDup (tagged t ms)) by (apply NoDup_filter; eapply NoDup_map_inv; exact ND).
  destruct (tagged t ms) as [|x [|y l]] eqn:E; cbn [length]; try lia. exfalso.
  assert (In x (tagged t ms) /\ In y (tagged t ms)) as [X Y] by (rewrite E; cbn; auto). apply tagged_in in X, Y. destruct X as [X1 X2], Y as [Y1 Y2].
  rewrite (tag_inj ms ND x y X1 Y1) in N by congruence. inversion N as [|? ? Z _]; subst. apply Z. left. reflexivity.
Qed.
Lemma posted_both sd t ms : posted sd t (both ms) = tagged t ms.
Proof.
  unfold both. rewrite posted_app. assert (G : forall x, posted sd t (map (pair x) ms) = if same_side x sd then tagged t ms else []).
  { intros x. unfold posted, tagged. induction ms as [|m l IH]; [destruct (same_side x sd); reflexivity|]. cbn [map filter fst snd].
    destruct (same_side x sd) eqn:E; cbn [andb]; [destruct (m_tag m =? t); cbn [map snd]; rewrite IH; reflexivity|exact IH]. }
  rewrite !G. destruct sd; cbn [same_side]; [apply app_nil_r|reflexivity].
Qed.
Lemma any_order ms prog : NoDup (map m_tag ms) -> Permutation prog (both ms) -> in_order ms prog.
Proof.
  intros ND P sd t. assert (X : Permutation (posted sd t prog) (tagged t ms)) by (rewrite <- (posted_both sd); apply Permutation_map, perm_filter; exact P).
  pose proof (tagged_one ms t ND) as L. destruct (tagged t ms) as [|x [|y l]]; cbn [length] in L; [|apply Permutation_sym in X; apply Permutation_length_1_inv; exact X|lia].
  apply Permutation_nil. apply Permutation_sym. exact X.
Qed.
Theorem C99_lemma s a cm so k ms prog sts : reach s a -> cfg_ok c -> mem_ok (s_mem s) -> comm_at a cm = Some k -> so = 0 \/ so = MPI_ANY_SOURCE ->
  msgs_ok c a (s_mem s) k ms -> Permutation prog (both ms) ->
  let n := Z.of_nat (length prog) in
  n <= handles_left a -> a_items a + n <= INT_MAX -> n <= Z.of_nat (length sts) ->
  exists hs s1 a1, gives c tj (map (post cm so) prog) s a (map VInt hs) s1 a1 /\
    delivered c ms (s_mem s) (s_mem s1) /\ comm_at a1 cm = Some k /\
    exists sts' s2 a2, does s1 a1 (KWaitall n hs (SSAt sts)) (VAll (map (fun _ => MPI_REQUEST_NULL) hs) 1 sts') s2 a2 /\
      s_mem s2 = s_mem s1 /\ forall x, a_obj a2 x = a_obj a x.
Proof.
  intros R CO MO K0 So OK PM. apply C99_ordered_lemma; auto; [apply fit_ok; exact OK|apply any_order; [exact (ms_tags _ _ _ _ _ OK)|exact PM]].
Qed.
End ExchangeFacts.

Lemma app_inj_1 {A} : forall (a a' b b' : list A), length a = length a' -> a ++ b = a' ++ b' -> a = a' /\ b = b'.
Proof.
  induction a as [|x a IH]; intros [|y a'] b b' L E; try discriminate; [auto|]. cbn [app] in E. injection E as -> E.
  cbn [length] in L. destruct (IH a' b b') as [-> ->]; auto.
Qed.
Lemma bytes_app_inv m m' : forall rs, bytes m rs = bytes m' rs -> forall r x, In r rs -> inside r x -> m x = m' x.
Proof.
  unfold bytes. induction rs as [|q rs IH]; intros E r x Hr Hx; [destruct Hr|]. cbn [flat_map] in E.
  assert (L : map (fun j => m (fst q + j)) (upto (snd q)) = map (fun j => m' (fst q + j)) (upto (snd q)) /\
    flat_map (fun r => map (fun j => m (fst r + j)) (upto (snd r))) rs = flat_map (fun r => map (fun j => m' (fst r + j)) (upto (snd r))) rs).
  { apply app_inj_1; [rewrite !map_length; reflexivity|exact E]. }
  destruct L as [L1 L2]. destruct Hr as [->|Hr]; [|eapply IH; eauto]. unfold inside in Hx.
  assert (J : In (x - fst r) (upto (snd r))) by (unfold upto; apply in_map_iff; exists (Z.to_nat (x - fst r)); split; [lia|apply in_seq; lia]).
  revert L1 J. clear. induction (upto (snd r)) as [|j l IH]; intros E I; [destruct I|]. cbn [map] in E. injection E as E1 E2.
  destruct I as [->|I]; [|auto]. replace (fst r + (x - fst r)) with x in E1 by lia. exact E1.
Qed.
Lemma inside_dec r x : {inside r x} + {~ inside r x}.
Proof. unfold inside. destruct (Z_le_dec (fst r) x), (Z_lt_dec x (fst r + snd r)); [left; lia|right; lia..]. Qed.
Lemma delivered_unique c ms m0 m1 m2 : delivered c ms m0 m1 -> delivered c ms m0 m2 -> forall x, m1 x = m2 x.
Proof.
  intros [A1 B1] [A2 B2] x.
  destruct (Exists_dec (fun r => inside r x) (flat_map (dst_of c) ms) (fun r => inside_dec r x)) as [E|N].
  - apply Exists_exists in E. destruct E as (r & Hr & Hx). apply in_flat_map in Hr. destruct Hr as (m & Hm & Hr).
    eapply bytes_app_inv; [|exact Hr|exact Hx]. rewrite A1, A2; auto.
  - rewrite B1, B2; auto; intros m r Hm Hr Hx; apply N; apply Exists_exists; exists r; (split; [apply in_flat_map; eauto|exact Hx]).
Qed.

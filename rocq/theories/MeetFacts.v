(** Without wildcards the k-th send with a tag meets the k-th receive with that tag. *)
From Coq Require Import Sorted.
From Verif Require Import Base HandleSpec HandleExact TypeModel TypeSpec CopyModel CopySpec CopyProofs CopyFinal SysModel CollModel SysCalls SysSpec SysLog SysReach SysInv SysAbs SysSim SysSim2 SysSim3 SysHist SysFacts SysFacts2 SysFacts3 SysFacts5 MeetSpec.

Lemma posts_app l l' sd uid g : posts (l ++ l') sd uid g = posts l sd uid g ++ posts l' sd uid g.
Proof. apply flat_map_app. Qed.
Lemma meets_app l l' ss : meets (l ++ l') ss = meets l ss ++ meets l' ss.
Proof. apply flat_map_app. Qed.
Lemma posts_in l sd uid g id : In id (posts l sd uid g) <-> In (EPost id sd uid g) l.
Proof.
  unfold posts. rewrite in_flat_map. split.
  - intros ([id' sd' uid' g'|] & Hi & H); [|contradiction]. destruct (same_side sd sd') eqn:E1; [|contradiction]. destruct (Z.eqb_spec uid uid'); [|contradiction].
    destruct (Z.eqb_spec g g'); [|contradiction]. destruct H as [->|[]]. apply same_side_eq in E1. subst. exact Hi.
  - intros Hi. eexists. split; [exact Hi|]. cbn beta iota. rewrite same_side_refl, !Z.eqb_refl. simpl; auto.
Qed.
Lemma meets_in l ss s r : In (s, r) (meets l ss) <-> In (EMatch s r) l /\ In s ss.
Proof.
  unfold meets. rewrite in_flat_map. split.
  - intros ([|s' r'] & Hi & H); [contradiction|]. destruct (existsb (Z.eqb s') ss) eqn:E; [|contradiction]. destruct H as [H|[]]. injection H as -> ->.
    split; auto. apply existsb_exists in E. destruct E as (x & Hx & E). apply Z.eqb_eq in E. subst x. exact Hx.
  - intros [Hi Hs]. eexists. split; [exact Hi|]. cbn beta iota. replace (existsb (Z.eqb s) ss) with true; [simpl; auto|].
    symmetry. apply existsb_exists. exists s. split; auto. apply Z.eqb_refl.
Qed.
Lemma meets_ext l ss ss' : (forall s r, In (EMatch s r) l -> (In s ss <-> In s ss')) -> meets l ss = meets l ss'.
Proof.
  induction l as [|e l IH]; intros H; [reflexivity|]. unfold meets in *. cbn [flat_map]. rewrite IH by (intros; eapply H; simpl; eauto).
  apply (f_equal2 (@app (Z*Z))); [|reflexivity]. destruct e as [|s r]; [reflexivity|].
  replace (existsb (Z.eqb s) ss') with (existsb (Z.eqb s) ss); [reflexivity|]. apply eq_true_iff_eq. rewrite !existsb_exists.
  specialize (H s r ltac:(simpl; auto)). split; intros (x & Hx & E); apply Z.eqb_eq in E; subst x; exists s; (split; [apply H; exact Hx|apply Z.eqb_refl]).
Qed.
Lemma nodup_posts1 l n sd uid g : log_ok l n -> NoDup (posts l sd uid g).
Proof.
  intros L. pose proof (nodup_posts _ _ L) as ND. clear L. induction l as [|e l IH]; [constructor|].
  unfold posts, post_ids in *. cbn [flat_map] in *. fold (post_ids l) in *. fold (posts l sd uid g) in *.
  destruct e as [id sd' uid' g'|]; [|exact (IH ND)]. cbn [app] in ND. inversion ND as [|? ? N1 N2]; subst. specialize (IH N2).
  destruct (same_side sd sd' && (uid =? uid') && (g =? g')); [|exact IH]. cbn [app]. constructor; auto.
  rewrite posts_in. intros Hi. apply N1. unfold post_ids. apply in_flat_map. eexists. split; [exact Hi|]. simpl; auto.
Qed.

(** The waiting operations with tag [g]. *)
Lemma waiting_tag l sd uid g : map fst (filter (fun x => snd x =? g) (waiting l sd uid)) = filter (fun id => negb (matchedb l id)) (posts l sd uid g).
Proof.
  change (waiting l sd uid) with (wait_part l l sd uid). generalize l at 1 3. intros all. induction l as [|e l IH]; [reflexivity|].
  unfold wait_part, posts in *. cbn [flat_map]. rewrite !filter_app, map_app, IH. apply (f_equal2 (@app Z)); [|reflexivity].
  destruct e as [id sd' uid' g'|]; [|reflexivity]. destruct (same_side sd sd' && (uid =? uid')); cbn [andb]; [|reflexivity].
  rewrite (Z.eqb_sym g g'). destruct (matchedb all id) eqn:E; cbn [negb]; destruct (Z.eqb_spec g' g) as [->|N]; cbn [filter map snd fst];
  rewrite ?E, ?Z.eqb_refl; cbn [negb map fst]; try reflexivity. destruct (Z.eqb_spec g' g); [contradiction|reflexivity].
Qed.

Lemma firstn_snd {A B} : forall (x : list A) (y : list B), map snd (combine x y) = firstn (length x) y.
Proof. induction x as [|a x IH]; intros [|b y]; cbn; try reflexivity. rewrite IH. reflexivity. Qed.
Lemma firstn_fst {A B} : forall (x : list A) (y : list B), map fst (combine x y) = firstn (length y) x.
Proof. induction x as [|a x IH]; intros [|b y]; cbn; try reflexivity. rewrite IH. reflexivity. Qed.
Lemma filter_none {A} (f : A -> bool) l : (forall x, In x l -> f x = false) -> filter f l = [].
Proof. induction l as [|x l IH]; intros H; [reflexivity|]. cbn [filter]. rewrite (H x) by (simpl; auto). apply IH. intros; apply H; simpl; auto. Qed.
Lemma filter_skip (f : Z -> bool) n l : NoDup l -> (forall x, In x l -> (f x = false <-> In x (firstn n l))) -> filter f l = skipn n l.
Proof.
  intros ND H. rewrite <- (firstn_skipn n l) at 1. rewrite filter_app, filter_none, filter_all; [reflexivity| |].
  - intros x Hx. destruct (f x) eqn:E; auto. exfalso. apply H in E; [|rewrite <- (firstn_skipn n l); apply in_or_app; auto].
    rewrite <- (firstn_skipn n l) in ND. clear - ND E Hx. induction (firstn n l) as [|y q IH]; [contradiction|]. cbn [app] in ND. inversion ND; subst.
    destruct E as [->|E]; [|auto]. apply H1. apply in_or_app. auto.
  - intros x Hx. apply H; auto. rewrite <- (firstn_skipn n l). apply in_or_app. auto.
Qed.

Lemma accepts_exact want tag : want <> MPI_ANY_TAG -> accepts want tag = true -> want = tag.
Proof. unfold accepts. intros N H. apply orb_true_iff in H. rewrite !Z.eqb_eq in H. destruct H; congruence. Qed.

(** The matches of tag [g] are the pairs in order. *)
Definition in_step (l : list event) (uid g : Z) : Prop := meets l (posts l Snd uid g) = combine (posts l Snd uid g) (posts l Rcv uid g).
Definition J (l : list event) : Prop := forall uid g, no_wild l uid -> in_step l uid g.

Lemma nw_less l l' uid : no_wild (l ++ l') uid -> no_wild l uid.
Proof. intros H id Hi. apply (H id). apply in_or_app. auto. Qed.

(** A match whose send, or whose receive, has tag [g] belongs to the tag. *)
Lemma match_tags l n s r uid g : log_ok l n -> no_wild l uid -> In (EMatch s r) l -> (In (EPost s Snd uid g) l <-> In (EPost r Rcv uid g) l).
Proof.
  intros L W Hi. assert (L0 := L). destruct L as (_ & _ & M). apply in_split in Hi. destruct Hi as (l1 & l2 & E).
  destruct (M _ _ _ _ E) as (u & t & w & H1 & H2 & Ac & _).
  assert (P1 : In (EPost s Snd u t) l) by (rewrite E; apply in_or_app; auto). assert (P2 : In (EPost r Rcv u w) l) by (rewrite E; apply in_or_app; auto).
  split; intros P.
  - destruct (post_once _ _ _ _ _ _ _ _ _ L0 P P1) as (_ & -> & ->). assert (w <> MPI_ANY_TAG) by (intros ->; apply (W r); exact P2). apply accepts_exact in Ac; auto. congruence.
  - destruct (post_once _ _ _ _ _ _ _ _ _ L0 P P2) as (_ & -> & ->). assert (w <> MPI_ANY_TAG) by (intros ->; apply (W r); exact P2). apply accepts_exact in Ac; auto. congruence.
Qed.
Lemma matched_send l n s uid g : log_ok l n -> In (EPost s Snd uid g) l -> (matched l s <-> exists r, In (EMatch s r) l).
Proof.
  intros L P. split; [|intros (r & H); exists s, r; auto]. intros (s' & r & Hi & [->| ->]); [eauto|].
  destruct (match_posted _ _ _ _ L Hi) as [_ (u & t & P')]. destruct (post_once _ _ _ _ _ _ _ _ _ L P P') as (X & _). discriminate.
Qed.
Lemma matched_recv l n r uid g : log_ok l n -> In (EPost r Rcv uid g) l -> (matched l r <-> exists s, In (EMatch s r) l).
Proof.
  intros L P. split; [|intros (s & H); exists s, r; auto]. intros (s & r' & Hi & [->| ->]); [|eauto].
  destruct (match_posted _ _ _ _ L Hi) as [(u & t & P') _]. destruct (post_once _ _ _ _ _ _ _ _ _ L P P') as (X & _). discriminate.
Qed.

(** What is left of each side. *)
Lemma left_side l n sd uid g : log_ok l n -> no_wild l uid -> in_step l uid g ->
  filter (fun id => negb (matchedb l id)) (posts l sd uid g) = skipn (length (posts l (other sd) uid g)) (posts l sd uid g).
Proof.
  intros L W S. apply filter_skip; [eapply nodup_posts1; eauto|]. intros x Hx. assert (P := Hx). apply posts_in in P.
  rewrite negb_false_iff, matchedb_ok. unfold in_step in S. destruct sd; cbn [other].
  - rewrite <- firstn_fst, <- S. rewrite (matched_send _ _ _ _ _ L P). rewrite in_map_iff. split.
    + intros (r & Hi). exists (x, r). split; auto. apply meets_in. auto.
    + intros ([s r] & E & Hi). cbn in E. subst s. apply meets_in in Hi. exists r. apply Hi.
  - rewrite <- firstn_snd, <- S. rewrite (matched_recv _ _ _ _ _ L P). rewrite in_map_iff. split.
    + intros (s & Hi). exists (s, x). split; auto. apply meets_in. split; auto. apply posts_in. eapply match_tags; eauto.
    + intros ([s r] & E & Hi). cbn in E. subst r. apply meets_in in Hi. exists s. apply Hi.
Qed.
Lemma left_queue a h k sd g : inv a -> J (a_log a) -> comm_at a h = Some k -> no_wild (a_log a) (k_uid k) ->
  left_over (line sd k) g = skipn (length (posts (a_log a) (other sd) (k_uid k) g)) (posts (a_log a) sd (k_uid k) g).
Proof.
  intros I HJ E W. rewrite <- (left_side _ _ _ _ _ (hy_log _ (iv_hist _ I)) W (HJ _ _ W)). rewrite <- waiting_tag, <- (inv_wait _ sd _ _ I E).
  unfold left_over. generalize (line sd k). clear. induction l as [|p l IH]; [reflexivity|]. cbn [map filter snd]. destruct (p_tag p =? g); cbn [map fst]; rewrite IH; reflexivity.
Qed.

(** *** Posting *)
Lemma posts_other l id sd uid g sd' uid' g' : sd' <> sd \/ uid' <> uid \/ g' <> g -> posts (l ++ [EPost id sd uid g]) sd' uid' g' = posts l sd' uid' g'.
Proof.
  intros H. rewrite posts_app. unfold posts at 2. cbn [flat_map]. destruct (same_side sd' sd) eqn:E1; [apply same_side_eq in E1|]; cbn [andb]; rewrite ?app_nil_r; auto.
  destruct (Z.eqb_spec uid' uid); cbn [andb]; rewrite ?app_nil_r; auto. destruct (Z.eqb_spec g' g); rewrite ?app_nil_r; auto. intuition congruence.
Qed.
Lemma posts_same l id sd uid g : posts (l ++ [EPost id sd uid g]) sd uid g = posts l sd uid g ++ [id].
Proof. rewrite posts_app. unfold posts at 2. cbn [flat_map]. rewrite same_side_refl, !Z.eqb_refl. reflexivity. Qed.
Lemma posts_ev l sd own oth sd' uid g : posts (l ++ [match_ev sd own oth]) sd' uid g = posts l sd' uid g.
Proof. rewrite posts_app. destruct sd; cbn; apply app_nil_r. Qed.
Lemma meets_post l id sd uid g ss : meets (l ++ [EPost id sd uid g]) ss = meets l ss.
Proof. rewrite meets_app. cbn. apply app_nil_r. Qed.
Lemma meets_fresh l n ss id : log_ok l n -> n <= id -> meets l (ss ++ [id]) = meets l ss.
Proof.
  intros L H. apply meets_ext. intros s r Hi. rewrite in_app_iff. split; auto. intros [Hs|[->|[]]]; auto.
  exfalso. apply (fresh_unmatched _ _ _ L H). exists s, r. auto.
Qed.
Lemma combine_long_l {A B} : forall (x : list A) (y : list B) z, skipn (length x) y = [] -> combine (x ++ z) y = combine x y.
Proof.
  induction x as [|a x IH]; intros [|b y] z H; cbn [app combine length skipn] in *; try reflexivity; try discriminate; [destruct z; reflexivity|]. rewrite IH; auto.
Qed.
Lemma combine_long_r {A B} : forall (x : list A) (y : list B) z, skipn (length y) x = [] -> combine x (y ++ z) = combine x y.
Proof. induction x as [|a x IH]; intros [|b y] z H; cbn [app combine length skipn] in *; try reflexivity; try discriminate. rewrite IH; auto. Qed.
Lemma combine_next_l {A B} : forall (x : list A) (y : list B) i j q, skipn (length x) y = j :: q -> combine (x ++ [i]) y = combine x y ++ [(i, j)].
Proof.
  induction x as [|a x IH]; intros [|b y] i j q H; cbn in *; try discriminate; [injection H as -> ->; reflexivity|]. rewrite (IH _ _ _ _ H). reflexivity.
Qed.
Lemma combine_next_r {A B} : forall (x : list A) (y : list B) i j q, skipn (length y) x = j :: q -> combine x (y ++ [i]) = combine x y ++ [(j, i)].
Proof.
  induction x as [|a x IH]; intros [|b y] i j q H; cbn in *; try discriminate; [injection H as -> ->; destruct q; reflexivity|]. rewrite (IH _ _ _ _ H). reflexivity.
Qed.

Lemma J_queued a a' cm k sd p : inv a -> J (a_log a) -> comm_at a cm = Some k -> p_id p = a_clock a -> none_goes sd (p_tag p) k -> a_log a' = a_log a ++ [EPost (p_id p) sd (k_uid k) (p_tag p)] -> J (a_log a').
Proof.
  intros I HJ Ek Ei Ng El uid g W. rewrite El in *. pose proof (nw_less _ _ _ W) as W0. specialize (HJ uid g W0) as HS. unfold in_step in *.
  pose proof (hy_log _ (iv_hist _ I)) as L. rewrite meets_post.
  destruct (Z.eq_dec uid (k_uid k)) as [->|Nu].
  2:{ rewrite !posts_other by auto. exact HS. }
  destruct (Z.eq_dec g (p_tag p)) as [->|Ng'].
  2:{ rewrite !posts_other by auto. exact HS. }
  assert (Lq : left_over (line (other sd) k) (p_tag p) = []).
  { unfold left_over. rewrite filter_none; [reflexivity|]. intros q Hq. apply Z.eqb_neq. intros X. specialize (Ng _ Hq). rewrite X in Ng.
    destruct sd; unfold goes_with, accepts in Ng; rewrite Z.eqb_refl, orb_true_r in Ng; discriminate. }
  rewrite (left_queue _ _ _ _ _ I HJ Ek W0) in Lq.
  destruct sd; cbn [other] in Lq.
  - rewrite posts_same, posts_other by (left; discriminate). rewrite (meets_fresh _ _ _ _ L) by lia. rewrite HS. symmetry. apply combine_long_l. exact Lq.
  - rewrite posts_same, posts_other by (left; discriminate). rewrite HS. symmetry. apply combine_long_r. exact Lq.
Qed.

Lemma left_first bf p e g : (forall q, In q bf -> p_tag q <> g) -> p_tag p = g -> left_over (bf ++ p :: e) g = p_id p :: left_over e g.
Proof.
  intros H E. unfold left_over. rewrite filter_app, filter_none; [|intros q Hq; apply Z.eqb_neq; auto]. cbn [app filter]. rewrite E, Z.eqb_refl. reflexivity.
Qed.
Lemma goes_same sd g : goes_with sd g g = true.
Proof. destruct sd; cbn; unfold accepts; rewrite Z.eqb_refl, orb_true_r; reflexivity. Qed.

Lemma nil_none {A} (l : list A) : (forall x, ~ In x l) -> l = [].
Proof. destruct l as [|x l]; auto. intros H. exfalso. apply (H x). simpl; auto. Qed.
Lemma J_paired a a' cm k sd g bf p e : inv a -> J (a_log a) -> comm_at a cm = Some k -> earliest sd g k bf p e ->
  a_log a' = a_log a ++ [EPost (a_clock a) sd (k_uid k) g; match_ev sd (a_clock a) (p_id p)] -> J (a_log a').
Proof.
  intros I HJ Ek (El & Gp & Gb) Eg uid g' W. rewrite Eg in *. pose proof (nw_less _ _ _ W) as W0. specialize (HJ uid g' W0) as HS. unfold in_step in *.
  pose proof (hy_log _ (iv_hist _ I)) as L.
  change [EPost (a_clock a) sd (k_uid k) g; match_ev sd (a_clock a) (p_id p)] with ([EPost (a_clock a) sd (k_uid k) g] ++ [match_ev sd (a_clock a) (p_id p)]) in *.
  rewrite app_assoc in *. rewrite !posts_ev, meets_app, meets_post.
  assert (Pp : In (EPost (p_id p) (other sd) (k_uid k) (p_tag p)) (a_log a)) by (eapply queue_waiting; eauto; rewrite El; apply in_or_app; simpl; auto).
  destruct (Z.eq_dec uid (k_uid k)) as [->|Nu].
  - (* the tags of the two are the same *)
    assert (Et : p_tag p = g).
    { destruct sd; cbn [goes_with] in Gp.
      - apply accepts_exact in Gp; [auto|]. intros X. rewrite X in Pp. exact (W0 _ Pp).
      - symmetry. apply accepts_exact; auto. intros ->. apply (W (a_clock a)). apply in_or_app. left. apply in_or_app. right. simpl; auto. }
    destruct (Z.eq_dec g' g) as [->|Ng].
    + pose proof (left_queue _ _ _ (other sd) g I HJ Ek W0) as Lq. rewrite El, left_first in Lq; auto.
      2:{ intros q Hq X. specialize (Gb _ Hq). rewrite X, goes_same in Gb. discriminate. }
      symmetry in Lq. destruct sd; cbn [other match_ev] in *.
      * rewrite posts_same, posts_other by (left; discriminate). rewrite (meets_fresh _ _ _ _ L) by lia. rewrite HS.
        rewrite (combine_next_l _ _ _ _ _ Lq). cbn [meets flat_map]. rewrite existsb_app. cbn [existsb]. rewrite Z.eqb_refl, orb_true_r. reflexivity.
      * rewrite posts_same, posts_other by (left; discriminate). rewrite HS. rewrite (combine_next_r _ _ _ _ _ Lq). cbn [meets flat_map].
        replace (existsb (Z.eqb (p_id p)) (posts (a_log a) Snd (k_uid k) g)) with true; [reflexivity|]. symmetry. apply existsb_exists.
        exists (p_id p). split; [|apply Z.eqb_refl]. apply posts_in. rewrite <- Et. exact Pp.
    + rewrite !posts_other by auto. replace (meets [match_ev sd (a_clock a) (p_id p)] (posts (a_log a) Snd (k_uid k) g')) with (@nil (Z * Z)); [rewrite app_nil_r; exact HS|].
      symmetry. apply nil_none. intros [s r] Hi.
      apply meets_in in Hi. destruct Hi as [[Hi|[]] Hs]. apply posts_in in Hs. destruct sd; cbn [match_ev other] in *; injection Hi as <- <-.
      * apply (posted_lt _ _ _ _ _ _ L) in Hs. lia.
      * destruct (post_once _ _ _ _ _ _ _ _ _ L Hs Pp) as (_ & _ & X). congruence.
  - rewrite !posts_other by auto. replace (meets [match_ev sd (a_clock a) (p_id p)] (posts (a_log a) Snd uid g')) with (@nil (Z * Z)); [rewrite app_nil_r; exact HS|].
    symmetry. apply nil_none. intros [s r] Hi.
    apply meets_in in Hi. destruct Hi as [[Hi|[]] Hs]. apply posts_in in Hs. destruct sd; cbn [match_ev other] in *; injection Hi as <- <-.
    * apply (posted_lt _ _ _ _ _ _ L) in Hs. lia.
    * destruct (post_once _ _ _ _ _ _ _ _ _ L Hs Pp) as (_ & X & _). congruence.
Qed.

(** *** Every call *)
Definition fed (a a' : astate) : Prop := J (a_log a) -> J (a_log a').
Lemma fed_quiet a a' : a_log a' = a_log a -> fed a a'. Proof. unfold fed. intros ->. auto. Qed.
Lemma fed_refl a : fed a a. Proof. apply fed_quiet; auto. Qed.
Lemma fed_trans a b d : fed a b -> fed b d -> fed a d. Proof. unfold fed. auto. Qed.
Definition mute {A} (e : sp A) : Prop := forall a x a', e a = Ret x a' -> a_log a' = a_log a.
Lemma mute_fed {A} (e : sp A) a x a' : mute e -> e a = Ret x a' -> fed a a'. Proof. intros M E. apply fed_quiet. eapply M; eauto. Qed.
Lemma mute_ret {A} (x : A) : mute (sret x). Proof. intros a y a' E. apply Ret_state in E. subst. reflexivity. Qed.
Lemma mute_bind {A B} (e : sp A) (f : A -> sp B) : mute e -> (forall x, mute (f x)) -> mute (sbind e f).
Proof. intros He Hf a y a'. unfold sbind. destruct (e a) as [x a1| |] eqn:E; try discriminate. intros X. rewrite (Hf _ _ _ _ X). eapply He; eauto. Qed.
Lemma mute_abort {A} w : mute (fun _ => @SAbort A w). Proof. intros a x a' E. discriminate. Qed.
Lemma mute_alloc f : mute (s_alloc f). Proof. intros a x a' E. apply alloc_inv in E. destruct E as (? & ? & _ & ->). reflexivity. Qed.
Lemma mute_free h : mute (s_free h). Proof. intros a x a' E. apply Ret_state in E. subst. reflexivity. Qed.
Lemma mute_test r : mute (s_test r).
Proof.
  unfold s_test. intros a x a'. destruct (r =? MPI_REQUEST_NULL); [apply mute_ret|]. destruct (req_at a r) as [q|]; [|discriminate].
  destruct (report q); [apply (mute_bind _ _ (mute_free r)); intros; apply mute_ret|apply mute_ret].
Qed.
Lemma mute_wait m r : mute (s_wait m r).
Proof. apply mute_bind; [apply mute_test|]. intros [[? f] ?]. destruct (f =? 0); [apply mute_abort|apply mute_ret]. Qed.
Lemma mute_tests : forall n rs, mute (s_tests n rs).
Proof.
  induction n as [|n IH]; intros [|r rs]; cbn [s_tests]; try apply mute_ret. apply mute_bind; [apply mute_test|]. intros [[? ?] ?]. apply mute_bind; [apply IH|]. intros [[? ?] ?]. apply mute_ret.
Qed.
Lemma mute_waitall : forall n rs, mute (s_waitall n rs).
Proof.
  induction n as [|n IH]; intros [|r rs]; cbn [s_waitall]; try apply mute_ret. apply mute_bind; [apply mute_wait|]. intros [? ?]. apply mute_bind; [apply IH|]. intros [? ?]. apply mute_ret.
Qed.
Lemma mute_testany : forall n rs d, mute (s_testany n d rs).
Proof.
  induction n as [|n IH]; intros [|r rs] d; cbn [s_testany]; try apply mute_ret. apply mute_bind; [apply mute_test|]. intros [[? f] ?]. destruct (f =? 0); [apply IH|apply mute_ret].
Qed.
Lemma mute_comm_new : mute s_comm_new.
Proof. intros a x a'. unfold s_comm_new. apply (mute_bind _ _ (mute_alloc _)). intros h b y b' E. apply Ret_state in E. subst. reflexivity. Qed.
Lemma fed_isend c b n t d g cm a h a' : inv a -> s_isend c b n t d g cm a = Ret h a' -> fed a a'.
Proof.
  intros I E HJ. destruct (isend_inv _ _ _ _ _ _ _ _ _ I E) as [(_ & A1 & A2 & A3 & A4 & A5 & A6)|(_ & k & Ek & [(bf & p & e & m & Ea & _ & P)|(Ng & Q)])].
  - rewrite A6. exact HJ.
  - eapply J_paired; eauto. apply P.
  - eapply (J_queued a a' cm k Snd (mkPend (a_clock a) h b n t g)); auto. apply Q.
Qed.
Lemma fed_irecv c b n t d g cm a h a' : inv a -> s_irecv c b n t d g cm a = Ret h a' -> fed a a'.
Proof.
  intros I E HJ. destruct (irecv_inv _ _ _ _ _ _ _ _ _ I E) as [(_ & A1 & A2 & A3 & A4 & A5 & A6)|(_ & k & Ek & [(bf & p & e & m & Ea & _ & P)|(Ng & Q)])].
  - rewrite A6. exact HJ.
  - eapply J_paired; eauto. apply P.
  - eapply (J_queued a a' cm k Rcv (mkPend (a_clock a) h b n t g)); auto. apply Q.
Qed.
Lemma fed_send c b n t d g cm a u a' : inv a -> s_send c b n t d g cm a = Ret u a' -> fed a a'.
Proof.
  intros I. unfold s_send, sbind. destruct (s_isend c b n t d g cm a) as [h a1| |] eqn:E1; try discriminate. destruct (s_wait _ h a1) as [w a2| |] eqn:E2; try discriminate.
  intros E. apply Ret_state in E. subst a'. eapply fed_trans; [eapply fed_isend; eauto|eapply mute_fed; [apply mute_wait|eauto]].
Qed.
Section Facts.
Context {c : cfg} {tj : Z -> tjunk}.
Notation reach := (SysReach.reach c tj).
Notation does := (SysReach.does c tj).

Lemma spec_fed k a Q a' : inv a -> legal c tj k a -> spec c tj k a = Ret Q a' -> fed a a'.
Proof.
  intros I L. destruct k; cbn [spec legal] in *; unfold smap; try (unfold sbind at 1);
  try (match goal with |- context [if ?b then sret _ else s_comm_new] => destruct b end;
       [cbn [sret]; intros E; apply Ret_state in E; subst a'; apply fed_refl|];
       destruct (s_comm_new a) as [x a1| |] eqn:E1; try discriminate; intros E; apply Ret_state in E; subst a'; eapply mute_fed; [apply mute_comm_new|eauto]; fail);
  try (match goal with |- context [s_isend ?c ?b ?n ?t ?d ?g ?cm a] => destruct (s_isend c b n t d g cm a) as [x a1| |] eqn:E1 end; try discriminate;
       intros E; apply Ret_state in E; subst a'; eapply fed_isend; eauto; fail);
  try (match goal with |- context [s_irecv ?c ?b ?n ?t ?d ?g ?cm a] => destruct (s_irecv c b n t d g cm a) as [x a1| |] eqn:E1 end; try discriminate;
       intros E; apply Ret_state in E; subst a'; eapply fed_irecv; eauto; fail);
  try (match goal with |- context [s_send ?c ?b ?n ?t ?d ?g ?cm a] => destruct (s_send c b n t d g cm a) as [x a1| |] eqn:E1 end; try discriminate;
       intros E; apply Ret_state in E; subst a'; eapply fed_send; eauto; fail);
  try (match goal with |- context [s_query ?c ?h ?q a] => destruct (s_query c h q a) as [x a1| |] eqn:E1 end; try discriminate;
       intros E; apply Ret_state in E; subst a'; apply query_state in E1; subst a1; apply fed_refl; fail);
  try (match goal with |- context [s_moves ?f a] => destruct (s_moves f a) as [x a1| |] eqn:E1 end; try discriminate;
       intros E; apply Ret_state in E; subst a'; apply moves_state in E1; destruct E1 as [m ->]; apply fed_quiet; reflexivity; fail);
  try (unfold s_cart; match goal with |- context [existsb ?f ?l] => destruct (existsb f l) end; [discriminate|];
       destruct (s_comm_new a) as [x a1| |] eqn:E1; try discriminate; intros E; apply Ret_state in E; subst a'; eapply mute_fed; [apply mute_comm_new|eauto]; fail);
  try (unfold s_startup, sbind; destruct (s_comm_new a) as [x a1| |] eqn:E1; try discriminate; destruct (x =? MPI_COMM_WORLD); try discriminate;
       intros E; apply Ret_state in E; subst a'; eapply fed_trans; [eapply mute_fed; [apply mute_comm_new|eauto]|]; apply fed_quiet; reflexivity; fail).
  - (* finalize *) cbn. intros E. apply Ret_state in E. subst a'. apply fed_quiet; reflexivity.
  - intros E. apply Ret_state in E. subst a'. apply fed_refl.
  - destruct (s_comm_new a) as [x a1| |] eqn:E1; try discriminate. intros E; apply Ret_state in E; subst a'. eapply mute_fed; [apply mute_comm_new|eauto].
  - unfold s_comm_free. destruct (comm_at a comm) as [k|] eqn:Ek; [|discriminate]. unfold sbind, s_free. cbn [sret]. intros E. apply Ret_state in E. subst a'.
    apply fed_quiet; reflexivity.
  - unfold s_irsend, sbind. match goal with |- context [s_isend ?c ?b ?n ?t ?d ?g ?cm a] => destruct (s_isend c b n t d g cm a) as [x a1| |] eqn:E1 end; try discriminate.
    destruct (complete a1 x); [|discriminate]. intros E. apply Ret_state in E. subst a'. eapply fed_isend; eauto.
  - unfold s_recv, sbind. match goal with |- context [s_irecv ?c ?b ?n ?t ?d ?g ?cm a] => destruct (s_irecv c b n t d g cm a) as [x a1| |] eqn:E1 end; try discriminate.
    destruct (s_wait _ x a1) as [[y w] a2| |] eqn:E2; try discriminate. cbn [sret]. intros E. apply Ret_state in E. subst a'. eapply fed_trans; [eapply fed_irecv; eauto|eapply mute_fed; [apply mute_wait|eauto]].
  - unfold s_sendrecv, sbind. match goal with |- context [s_irecv ?c ?b ?n ?t ?d ?g ?cm a] => destruct (s_irecv c b n t d g cm a) as [x a1| |] eqn:E1 end; try discriminate.
    match goal with |- context [s_send ?c ?b ?n ?t ?d ?g ?cm a1] => destruct (s_send c b n t d g cm a1) as [u a2| |] eqn:E2 end; try discriminate.
    destruct (s_wait _ x a2) as [[y w] a3| |] eqn:E3; try discriminate. cbn [sret]. intros E. apply Ret_state in E. subst a'.
    pose proof (irecv_keeps _ _ _ _ _ _ _ _ _ _ I E1) as I1. eapply fed_trans; [eapply fed_irecv; eauto|]. eapply fed_trans; [eapply fed_send; eauto|eapply mute_fed; [apply mute_wait|eauto]].
  - destruct (s_test req a) as [[[? ?] ?] a1| |] eqn:E1; try discriminate. intros E; apply Ret_state in E; subst a'. eapply mute_fed; [apply mute_test|eauto].
  - destruct (s_wait _ req a) as [[? ?] a1| |] eqn:E1; try discriminate. intros E; apply Ret_state in E; subst a'. eapply mute_fed; [apply mute_wait|eauto].
  - destruct (s_testany _ _ _ a) as [[[? ?] ?] a1| |] eqn:E1; try discriminate. intros E; apply Ret_state in E; subst a'. eapply mute_fed; [apply mute_testany|eauto].
  - unfold s_waitany, sbind. destruct (s_testany _ _ _ a) as [[[? f] ?] a1| |] eqn:E1; try discriminate. destruct (f =? 0); [discriminate|]. cbn [sret].
    intros E; apply Ret_state in E; subst a'. eapply mute_fed; [apply mute_testany|eauto].
  - destruct (s_tests _ _ a) as [[[? ?] ?] a1| |] eqn:E1; try discriminate. intros E; apply Ret_state in E; subst a'. eapply mute_fed; [apply mute_tests|eauto].
  - destruct (s_waitall _ _ a) as [[? ?] a1| |] eqn:E1; try discriminate. intros E; apply Ret_state in E; subst a'. eapply mute_fed; [apply mute_waitall|eauto].
  - destruct (s_tests _ _ a) as [[[? ?] ?] a1| |] eqn:E1; try discriminate. intros E; apply Ret_state in E; subst a'. eapply mute_fed; [apply mute_tests|eauto].
  - destruct (s_tests _ _ a) as [[[? ?] ?] a1| |] eqn:E1; try discriminate. intros E; apply Ret_state in E; subst a'. eapply mute_fed; [apply mute_tests|eauto].
  - unfold s_request_free. destruct (req =? MPI_REQUEST_NULL); unfold sbind, s_free; cbn [sret]; intros E; apply Ret_state in E; subst a'; [apply fed_refl|apply fed_quiet; reflexivity].
  - unfold s_iprobe. destruct (negb _); [discriminate|]. destruct (comm_at a comm); [|discriminate]. destruct (first_such _ _) as [[[? ?] ?]|]; cbn [sret];
    intros E; apply Ret_state in E; subst a'; apply fed_refl.
  - unfold s_probe, s_iprobe, sbind. destruct (negb _); [discriminate|]. destruct (comm_at a comm); [|discriminate]. destruct (first_such _ _) as [[[? ?] ?]|]; cbn;
    intros E; [apply Ret_state in E; subst a'; apply fed_refl|discriminate].
  - unfold s_type_create. destruct (next_handle _ _) as [y|]; [|discriminate]. destruct (make_type _ _ _ _); try discriminate.
    unfold sbind. destruct (s_alloc _ a) as [h a1| |] eqn:Ea; try discriminate. cbn [sret]. intros E. apply Ret_state in E. subst a'.
    eapply fed_trans; [eapply mute_fed; [apply mute_alloc|exact Ea]|]. apply fed_quiet; reflexivity.
  - unfold s_type_commit. destruct (a_obj a h) as [[k|q|t]|] eqn:Eo; cbn [sret]; intros E; apply Ret_state in E; subst a'; try apply fed_refl.
    apply fed_quiet; reflexivity.
  - unfold s_type_free, sbind, s_free. cbn [sret]. intros E. apply Ret_state in E. subst a'. apply fed_quiet; reflexivity.
  - intros E. apply Ret_state in E. subst a'. apply fed_quiet; reflexivity.
Qed.

Lemma reach_J s a : reach s a -> J (a_log a).
Proof.
  induction 1 as [|s a k o s' Q a' R IH L E1 E2]; [intros uid g _; reflexivity|]. eapply spec_fed; eauto. eapply reach_inv; eauto.
Qed.
Lemma in_combine_nth {A B} (x : list A) (y : list B) : forall a b, In (a, b) (combine x y) <-> exists k, nth_error x k = Some a /\ nth_error y k = Some b.
Proof.
  revert y. induction x as [|u x IH]; intros [|v y] a b; cbn [combine].
  - split; [intros []|intros ([|k] & H & _); discriminate].
  - split; [intros []|intros ([|k] & H & _); discriminate].
  - split; [intros []|intros ([|k] & _ & H); discriminate].
  - split.
    + intros [H|H]; [injection H as -> ->; exists 0%nat; auto|]. apply IH in H. destruct H as (k & H1 & H2). exists (S k). auto.
    + intros ([|k] & H1 & H2); cbn in H1, H2; [left; congruence|right; apply IH; eauto].
Qed.
Theorem C91_pairs_lemma s a uid g : reach s a -> no_wild (a_log a) uid ->
  let l := a_log a in
  meets l (posts l Snd uid g) = combine (posts l Snd uid g) (posts l Rcv uid g) /\
  (forall sid rid, In (EMatch sid rid) l -> In (EPost sid Snd uid g) l -> exists k, nth_error (posts l Snd uid g) k = Some sid /\ nth_error (posts l Rcv uid g) k = Some rid) /\
  (forall k sid rid, nth_error (posts l Snd uid g) k = Some sid -> nth_error (posts l Rcv uid g) k = Some rid -> In (EMatch sid rid) l).
Proof.
  intros R W. cbv zeta. pose proof (reach_J _ _ R uid g W) as E. unfold in_step in E. split; [exact E|]. split.
  - intros sid rid Hi Hp. apply in_combine_nth. rewrite <- E. apply meets_in. split; auto. apply posts_in. exact Hp.
  - intros k sid rid H1 H2. assert (Hc : In (sid, rid) (combine (posts (a_log a) Snd uid g) (posts (a_log a) Rcv uid g))) by (apply in_combine_nth; eauto).
    rewrite <- E in Hc. apply meets_in in Hc. apply Hc.
Qed.
Theorem C91_left_lemma s a h k g : reach s a -> comm_at a h = Some k -> no_wild (a_log a) (k_uid k) ->
  let l := a_log a in
  left_over (k_sends k) g = skipn (length (posts l Rcv (k_uid k) g)) (posts l Snd (k_uid k) g) /\
  left_over (k_recvs k) g = skipn (length (posts l Snd (k_uid k) g)) (posts l Rcv (k_uid k) g).
Proof.
  intros R E W. cbv zeta. pose proof (reach_J _ _ R) as HJ. pose proof (reach_inv _ _ R) as I.
  split; [apply (left_queue _ _ _ Snd g I HJ E W)|apply (left_queue _ _ _ Rcv g I HJ E W)].
Qed.
Theorem C91_all_lemma s a h k : reach s a -> comm_at a h = Some k -> no_wild (a_log a) (k_uid k) ->
  ((k_sends k = [] /\ k_recvs k = []) <-> forall g, length (posts (a_log a) Snd (k_uid k) g) = length (posts (a_log a) Rcv (k_uid k) g)).
Proof.
  intros R E W. split.
  - intros [E1 E2] g. destruct (C91_left_lemma _ _ _ _ g R E W) as [H1 H2]. cbv zeta in H1, H2. rewrite E1 in H1. rewrite E2 in H2. cbn in H1, H2.
    apply (f_equal (@length Z)) in H1. apply (f_equal (@length Z)) in H2. rewrite skipn_length in H1, H2. cbn in H1, H2. lia.
  - intros H. split; apply nil_none; intros p Hp; destruct (C91_left_lemma _ _ _ _ (p_tag p) R E W) as [H1 H2]; cbv zeta in H1, H2;
    specialize (H (p_tag p)); [rewrite <- H, skipn_all in H1; clear H2; rename H1 into H2|rewrite H, skipn_all in H2; clear H1];
    (assert (X : In (p_id p) []); [rewrite <- H2; unfold left_over; apply in_map; apply filter_In; split; auto; apply Z.eqb_refl|destruct X]).
Qed.
Lemma no_wildb_ok l uid : no_wildb l uid = true -> no_wild l uid.
Proof. unfold no_wildb. destruct (posts l Rcv uid MPI_ANY_TAG) eqn:E; [|discriminate]. intros _ id Hi. apply posts_in in Hi. rewrite E in Hi. exact Hi. Qed.
End Facts.

(** The history invariant is preserved by every specified step. *)
From Verif Require Import Base HandleSpec HandleExact TypeModel CopyModel SysModel CollModel SysCalls SysSpec SysLog SysReach.
From Coq Require Import Sorted.

Lemma matchedb_ok l id : matchedb l id = true <-> matched l id.
Proof.
  unfold matchedb, matched. rewrite existsb_exists. split.
  - intros ([?|s r] & Hi & E); [discriminate|]. exists s, r. split; auto. apply orb_true_iff in E. rewrite !Z.eqb_eq in E. exact E.
  - intros (s & r & Hi & E). exists (EMatch s r). split; auto. apply orb_true_iff. rewrite !Z.eqb_eq. exact E.
Qed.
Lemma matchedb_no l id : matchedb l id = false <-> ~ matched l id.
Proof. rewrite <- matchedb_ok. destruct (matchedb l id); split; congruence. Qed.

Lemma matched_app l l' id : matched (l ++ l') id <-> matched l id \/ matched l' id.
Proof.
  unfold matched. split.
  - intros (s & r & Hi & E). apply in_app_iff in Hi. destruct Hi; [left|right]; eauto.
  - intros [(s & r & Hi & E)|(s & r & Hi & E)]; exists s, r; (split; [apply in_or_app|]; auto).
Qed.
Lemma matchedb_app l l' id : matchedb (l ++ l') id = matchedb l id || matchedb l' id.
Proof. unfold matchedb. apply existsb_app. Qed.

Lemma waiting_in l sd uid id tag : In (id, tag) (waiting l sd uid) <-> In (EPost id sd uid tag) l /\ ~ matched l id.
Proof.
  unfold waiting. rewrite in_flat_map. rewrite <- matchedb_no. split.
  - intros ([id' sd' uid' tag'|] & Hi & H); [|contradiction].
    destruct (same_side sd sd' && (uid =? uid') && negb (matchedb l id')) eqn:E; [|contradiction].
    destruct H as [H|[]]. injection H as -> ->. apply andb_true_iff in E. destruct E as [E E3]. apply andb_true_iff in E. destruct E as [E1 E2].
    apply Z.eqb_eq in E2. subst uid'. assert (sd = sd') by (destruct sd, sd'; congruence || discriminate). subst sd'.
    split; auto. destruct (matchedb l id); auto; discriminate.
  - intros (Hi & E). eexists. split; [exact Hi|]. cbn beta iota.
    rewrite Z.eqb_refl, E. destruct sd; cbn; auto.
Qed.

(** Parts of the list, with the whole log as context. *)
Definition wait_part (all l : list event) (sd : side) (uid : Z) : list (Z * Z) :=
  flat_map (fun e => match e with
    | EPost id sd' uid' tag => if same_side sd sd' && (uid =? uid') && negb (matchedb all id) then [(id, tag)] else []
    | EMatch _ _ => []
    end) l.
Lemma wait_part_app all l l' sd uid : wait_part all (l ++ l') sd uid = wait_part all l sd uid ++ wait_part all l' sd uid.
Proof. unfold wait_part. apply flat_map_app. Qed.

Lemma wait_part_more all new sd uid : forall l,
  wait_part (all ++ new) l sd uid = filter (fun x => negb (matchedb new (fst x))) (wait_part all l sd uid).
Proof.
  induction l as [|e l IH]; [reflexivity|]. unfold wait_part in *. cbn [flat_map]. rewrite filter_app, IH.
  apply (f_equal2 (@app (Z*Z))); [|reflexivity]. destruct e as [id sd' uid' tag|]; [|reflexivity].
  rewrite matchedb_app, negb_orb. destruct (same_side sd sd' && (uid =? uid')); cbn [andb]; [|reflexivity].
  destruct (negb (matchedb all id)); cbn [andb]; [|reflexivity]. cbn [filter fst]. destruct (negb (matchedb new id)); reflexivity.
Qed.

Lemma filter_all {A} (f : A -> bool) l : (forall x, In x l -> f x = true) -> filter f l = l.
Proof.
  induction l as [|x l IH]; intros H; [reflexivity|]. cbn [filter]. rewrite (H x) by (simpl; auto). rewrite IH; auto. intros; apply H; simpl; auto.
Qed.

Lemma waiting_post l id sd uid tag sd' uid' : ~ matched l id ->
  waiting (l ++ [EPost id sd uid tag]) sd' uid' =
  waiting l sd' uid' ++ (if same_side sd' sd && (uid' =? uid) then [(id, tag)] else []).
Proof.
  intros N. change (waiting (l ++ [EPost id sd uid tag]) sd' uid') with (wait_part (l ++ [EPost id sd uid tag]) (l ++ [EPost id sd uid tag]) sd' uid').
  rewrite wait_part_app, !wait_part_more. rewrite filter_all by (intros; reflexivity).
  change (wait_part l l sd' uid') with (waiting l sd' uid'). apply (f_equal2 (@app (Z*Z))); [reflexivity|].
  rewrite filter_all by (intros; reflexivity). unfold wait_part. cbn [flat_map]. apply matchedb_no in N. rewrite N.
  rewrite app_nil_r, andb_true_r. reflexivity.
Qed.

Lemma waiting_match l s r sd uid :
  waiting (l ++ [EMatch s r]) sd uid = filter (fun x => negb ((s =? fst x) || (r =? fst x))) (waiting l sd uid).
Proof.
  change (waiting (l ++ [EMatch s r]) sd uid) with (wait_part (l ++ [EMatch s r]) (l ++ [EMatch s r]) sd uid).
  rewrite wait_part_app, !wait_part_more. cbn [wait_part flat_map filter]. rewrite app_nil_r.
  change (wait_part l l sd uid) with (waiting l sd uid). apply filter_ext. intros x. unfold matchedb. cbn [existsb]. rewrite orb_false_r. reflexivity.
Qed.

(** *** Numbering *)
Lemma posted_lt l n id sd uid tag : log_ok l n -> In (EPost id sd uid tag) l -> 0 <= id < n.
Proof.
  intros (E & N & _) Hi. assert (Hp : In id (post_ids l)).
  { unfold post_ids. apply in_flat_map. eexists. split; [exact Hi|]. simpl; auto. }
  rewrite E in Hp. apply in_map_iff in Hp. destruct Hp as (k & <- & Hk). apply in_seq in Hk. lia.
Qed.
Lemma match_posted l n s r : log_ok l n -> In (EMatch s r) l -> (exists uid tag, In (EPost s Snd uid tag) l) /\ (exists uid tag, In (EPost r Rcv uid tag) l).
Proof.
  intros (_ & _ & M) Hi. apply in_split in Hi. destruct Hi as (l1 & l2 & E).
  destruct (M _ _ _ _ E) as (uid & tag & want & H1 & H2 & _). subst l. split; exists uid; eexists; apply in_or_app; left; eauto.
Qed.
Lemma fresh_unmatched l n id : log_ok l n -> n <= id -> ~ matched l id.
Proof.
  intros L H (s & r & Hi & E). destruct (match_posted _ _ _ _ L Hi) as [(u1 & t1 & H1) (u2 & t2 & H2)].
  apply (posted_lt _ _ _ _ _ _ L) in H1. apply (posted_lt _ _ _ _ _ _ L) in H2. lia.
Qed.

Lemma post_ids_app l l' : post_ids (l ++ l') = post_ids l ++ post_ids l'.
Proof. apply flat_map_app. Qed.
Lemma nodup_posts l n : log_ok l n -> NoDup (post_ids l).
Proof.
  intros (E & _). rewrite E. apply FinFun.Injective_map_NoDup; [intros x y; lia|apply seq_NoDup].
Qed.

Lemma post_once l n id sd uid tag sd' uid' tag' : log_ok l n -> In (EPost id sd uid tag) l -> In (EPost id sd' uid' tag') l ->
  sd = sd' /\ uid = uid' /\ tag = tag'.
Proof.
  intros L H1 H2. pose proof (nodup_posts _ _ L) as ND. clear L.
  induction l as [|e l IH]; [contradiction|]. unfold post_ids in ND. cbn [flat_map] in ND. fold (post_ids l) in ND.
  assert (X : forall sd uid tag, In (EPost id sd uid tag) l -> In id (post_ids l)).
  { intros. unfold post_ids. apply in_flat_map. eexists. split; [eassumption|]. simpl; auto. }
  destruct H1 as [->|H1]; destruct H2 as [E2|H2].
  - injection E2 as -> -> ->. auto.
  - cbn in ND. inversion ND; subst. exfalso. eauto.
  - subst e. cbn in ND. inversion ND; subst. exfalso. eauto.
  - apply IH; auto. destruct e; cbn in ND; [inversion ND; auto|auto].
Qed.

Lemma sorted_seq : forall n k, StronglySorted Z.lt (map Z.of_nat (List.seq k n)).
Proof.
  induction n as [|n IH]; intros k; cbn [seq map]; constructor; [apply IH|].
  apply Forall_forall. intros x Hx. apply in_map_iff in Hx. destruct Hx as (j & <- & Hj). apply in_seq in Hj. lia.
Qed.
Lemma sorted_waiting l n sd uid : log_ok l n -> StronglySorted Z.lt (map fst (waiting l sd uid)).
Proof.
  intros (E & _). assert (S : StronglySorted Z.lt (post_ids l)) by (rewrite E; apply sorted_seq). clear E.
  change (waiting l sd uid) with (wait_part l l sd uid). revert S. generalize l at 2. intros all. 
  induction l as [|e l IH]; intros S; [constructor|]. unfold wait_part, post_ids in *. cbn [flat_map] in *.
  fold (post_ids l) in *. fold (wait_part all l sd uid) in *.
  destruct e as [id sd' uid' tag|]; [|apply IH; exact S].
  cbn [app] in S. inversion S as [|x y S1 F]; subst. specialize (IH S1).
  destruct (same_side sd sd' && (uid =? uid') && negb (matchedb all id)); [|exact IH].
  cbn [map app fst]. constructor; [exact IH|]. apply Forall_forall. intros x Hx. rewrite Forall_forall in F. apply F.
  clear - Hx. apply in_map_iff in Hx. destruct Hx as ([i t] & <- & Hi). unfold wait_part in Hi. apply in_flat_map in Hi.
  destruct Hi as (e & He & Hi). unfold post_ids. apply in_flat_map. exists e. split; auto.
  destruct e as [id' sd1 uid1 tag1|]; [|contradiction]. destruct (_ && _ && _); [|contradiction]. destruct Hi as [Hi|[]]. injection Hi as -> ->. simpl; auto.
Qed.

Lemma sorted_nodup : forall l, StronglySorted Z.lt l -> NoDup l.
Proof.
  induction l as [|x l IH]; intros S; [constructor|]. inversion S as [|? ? S1 F]; subst. constructor; auto.
  intros Hx. rewrite Forall_forall in F. specialize (F _ Hx). lia.
Qed.
Lemma sorted_split b x e : StronglySorted Z.lt (b ++ x :: e) -> (forall y, In y b -> y < x) /\ (forall y, In y e -> x < y).
Proof.
  induction b as [|z b IH]; cbn [app]; intros S; inversion S as [|? ? S1 F]; subst; rewrite Forall_forall in F.
  - split; [intros ? []|auto].
  - destruct (IH S1) as [H1 H2]. split; auto. intros y [->|Hy]; auto. apply F. apply in_or_app. simpl; auto.
Qed.

(** *** The invariant *)
Record hw (a : astate) : Prop := {
  hw_live : forall h, a_obj a h <> None -> 1 <= h <= a_top a /\ ~ In h (a_freed a);
  hw_fr : forall h, In h (a_freed a) -> 1 <= h <= a_top a;
  hw_nd : NoDup (a_freed a);
  hw_top : 0 <= a_top a
}.
Record inv (a : astate) : Prop := {
  iv_hw : hw a;
  iv_hist : history_ok a;
  iv_qs : forall h k p, comm_at a h = Some k -> In p (k_sends k) -> req_at a (p_req p) = Some (QPending Snd (k_uid k) (p_id p));
  iv_qr : forall h k p, comm_at a h = Some k -> In p (k_recvs k) -> req_at a (p_req p) = Some (QPending Rcv (k_uid k) (p_id p));
  iv_made : forall h k, comm_at a h = Some k -> k_uid k < a_made a;
  iv_lmade : forall id sd uid tag, In (EPost id sd uid tag) (a_log a) -> uid < a_made a;
  iv_apart : forall h k p q, comm_at a h = Some k -> In p (k_sends k) -> In q (k_recvs k) -> accepts (p_tag q) (p_tag p) = false
}.

Lemma hw_next a h fr top o : hw a -> next_handle (a_freed a) (a_top a) = Some (h, fr, top) ->
  a_obj a h = None /\ 1 <= h /\ hw (set_obj (with_handles a fr top) h o).
Proof.
  intros W. unfold next_handle. destruct W as [W1 W2 W3 W4]. destruct (a_freed a) as [|f r] eqn:Ef.
  - destruct (Z.eqb_spec (a_top a) CAPACITY); [discriminate|]. intros E. injection E as <- <- <-.
    assert (a_obj a (a_top a + 1) = None).
    { destruct (a_obj a (a_top a + 1)) eqn:Eo; auto. destruct (W1 (a_top a + 1)); [congruence|]. lia. }
    split; auto. split; [lia|]. constructor; cbn; [|tauto|constructor|lia].
    intros x Hx. split; [|tauto]. unfold upd in Hx. destruct (Z.eqb_spec x (a_top a + 1)); [lia|]. destruct (W1 x Hx). lia.
  - intros E. injection E as <- <- <-. inversion W3 as [|? ? N1 N2]; subst.
    assert (a_obj a f = None).
    { destruct (a_obj a f) eqn:Eo; auto. destruct (W1 f); [congruence|]. simpl in *. tauto. }
    destruct (W2 f (or_introl eq_refl)). split; auto. split; [lia|]. constructor; cbn; auto.
    + intros x Hx. unfold upd in Hx. destruct (Z.eqb_spec x f) as [Exf|]; [rewrite Exf; auto|]. destruct (W1 x Hx) as [B1 B2]. split; auto. intros Hr. apply B2. simpl; auto.
    + intros x Hx. apply W2. simpl; auto.
Qed.

Lemma hw_free a h : hw a -> a_obj a h <> None -> hw (set_obj (with_handles a (h :: a_freed a) (a_top a)) h None).
Proof.
  intros [W1 W2 W3 W4] L. destruct (W1 _ L) as [B1 B2]. constructor; cbn; auto.
  - intros x Hx. unfold upd in Hx. destruct (Z.eqb_spec x h) as [|N]; [congruence|]. destruct (W1 x Hx). split; auto. intros [?|?]; [congruence|auto].
  - intros x [<-|Hx]; auto.
  - constructor; auto.
Qed.

Lemma inv_start m : inv (a_start m).
Proof.
  constructor; try (cbn; intros; discriminate).
  - constructor; cbn; try tauto; try lia; constructor.
  - constructor; cbn; try (intros; discriminate). split; [reflexivity|]. split; [lia|]. intros [|? ?] s r l2 E; discriminate.
  - cbn. tauto.
Qed.

(** *** Steps that leave communicators, requests and the log alone, or only take some away *)
Definition sub_state (a a' : astate) : Prop :=
  (forall h k, comm_at a' h = Some k -> comm_at a h = Some k) /\
  (forall h q, req_at a' h = Some q -> req_at a h = Some q) /\
  (forall h k p, comm_at a' h = Some k -> In p (k_sends k ++ k_recvs k) -> req_at a' (p_req p) = req_at a (p_req p)) /\
  a_log a' = a_log a /\ a_clock a' = a_clock a /\ a_made a <= a_made a'.

Lemma inv_sub a a' : inv a -> hw a' -> sub_state a a' -> inv a'.
Proof.
  intros I W (C & R & Q & L & K & Md). destruct I as [I1 [H1 H2 H3 H4 H5 H6] I2 I3 I4 I5 I6]. constructor; auto.
  - constructor; rewrite ?L, ?K; eauto.
  - intros h k p Ek Hp. rewrite (Q h k p Ek ltac:(apply in_or_app; auto)). eauto.
  - intros h k p Ek Hp. rewrite (Q h k p Ek ltac:(apply in_or_app; auto)). eauto.
  - intros h k Ek. specialize (I4 h k (C _ _ Ek)). lia.
  - intros id sd uid tag Hi. rewrite L in Hi. specialize (I5 _ _ _ _ Hi). lia.
  - intros h k p q Ek. apply (I6 h k p q). auto.
Qed.

Lemma comm_at_set a h o h' : comm_at (set_obj a h o) h' = if h' =? h then (match o with Some (AComm k) => Some k | _ => None end) else comm_at a h'.
Proof. unfold comm_at. cbn. unfold upd. destruct (h' =? h); reflexivity. Qed.
Lemma req_at_set a h o h' : req_at (set_obj a h o) h' = if h' =? h then (match o with Some (AReq q) => Some q | _ => None end) else req_at a h'.
Proof. unfold req_at. cbn. unfold upd. destruct (h' =? h); reflexivity. Qed.

Lemma comm_req a h k : comm_at a h = Some k -> req_at a h = None.
Proof. unfold comm_at, req_at. destruct (a_obj a h) as [[| |]|]; congruence. Qed.
Lemma req_comm a h q : req_at a h = Some q -> comm_at a h = None.
Proof. unfold comm_at, req_at. destruct (a_obj a h) as [[| |]|]; congruence. Qed.
Lemma none_at a h : a_obj a h = None -> comm_at a h = None /\ req_at a h = None.
Proof. unfold comm_at, req_at. intros ->. auto. Qed.

Lemma inv_pending a h k p : inv a -> comm_at a h = Some k -> In p (k_sends k ++ k_recvs k) ->
  exists sd, req_at a (p_req p) = Some (QPending sd (k_uid k) (p_id p)).
Proof.
  intros I Ek Hp. apply in_app_iff in Hp. destruct Hp as [Hp|Hp]; [exists Snd|exists Rcv]; [eapply iv_qs|eapply iv_qr]; eauto.
Qed.

(** Freeing an object that no line refers to. *)
Lemma inv_free a h : inv a -> a_obj a h <> None -> (forall sd uid id, req_at a h <> Some (QPending sd uid id)) ->
  inv (set_obj (with_handles a (h :: a_freed a) (a_top a)) h None).
Proof.
  intros I L N. apply (inv_sub a); auto; [apply hw_free; auto; apply (iv_hw _ I)|].
  assert (C : forall x, comm_at (set_obj (with_handles a (h :: a_freed a) (a_top a)) h None) x = if x =? h then None else comm_at a x) by (intros x; exact (comm_at_set (with_handles a (h :: a_freed a) (a_top a)) h None x)).
  assert (R : forall x, req_at (set_obj (with_handles a (h :: a_freed a) (a_top a)) h None) x = if x =? h then None else req_at a x) by (intros x; exact (req_at_set (with_handles a (h :: a_freed a) (a_top a)) h None x)).
  repeat split; cbn; try lia.
  - intros x k. rewrite C. destruct (x =? h); congruence.
  - intros x q. rewrite R. destruct (x =? h); congruence.
  - intros x k p. rewrite C, R. destruct (Z.eqb_spec x h); [discriminate|]. intros Ek Hp.
    destruct (inv_pending _ _ _ _ I Ek Hp) as (sd & Er). destruct (Z.eqb_spec (p_req p) h) as [E|]; auto. exfalso. rewrite E in Er. eapply N; eauto.
Qed.

(** A new object that is neither a communicator nor a pending request. *)
Lemma inv_new_type a h fr top t : inv a -> next_handle (a_freed a) (a_top a) = Some (h, fr, top) ->
  inv (set_obj (with_handles a fr top) h (Some (AType t))).
Proof.
  intros I E. destruct (hw_next _ _ _ _ (Some (AType t)) (iv_hw _ I) E) as (N & _ & W). destruct (none_at _ _ N) as [N1 N2]. apply (inv_sub a); auto.
  repeat split; cbn; try lia.
  - intros x k. rewrite (comm_at_set (with_handles a fr top)). destruct (x =? h); [discriminate|auto].
  - intros x q. rewrite (req_at_set (with_handles a fr top)). destruct (x =? h); [discriminate|auto].
  - intros x k p. rewrite (comm_at_set (with_handles a fr top)), (req_at_set (with_handles a fr top)). destruct (Z.eqb_spec x h); [discriminate|]. intros Ek Hp.
    destruct (inv_pending _ _ _ _ I Ek Hp) as (sd & Er). destruct (Z.eqb_spec (p_req p) h) as [Eh|]; auto.
    exfalso. unfold req_at in *. cbn in Er. rewrite Eh, N in Er. discriminate.
Qed.

Lemma inv_new_comm a h fr top : inv a -> next_handle (a_freed a) (a_top a) = Some (h, fr, top) ->
  inv (with_heads (set_obj (with_handles a fr top) h (Some (AComm (mkAcomm (a_made a) [] [])))) (a_made a + 1) (a_heads a + 2)).
Proof.
  intros I E. destruct (hw_next _ _ _ _ (Some (AComm (mkAcomm (a_made a) [] []))) (iv_hw _ I) E) as (N & _ & W).
  set (a' := with_heads _ _ _). destruct (none_at _ _ N) as [N1 N2].
  assert (C : forall x, comm_at a' x = if x =? h then Some (mkAcomm (a_made a) [] []) else comm_at a x).
  { intros x. exact (comm_at_set (with_handles a fr top) h (Some (AComm (mkAcomm (a_made a) [] []))) x). }
  assert (R : forall x, req_at a' x = if x =? h then None else req_at a x).
  { intros x. exact (req_at_set (with_handles a fr top) h (Some (AComm (mkAcomm (a_made a) [] []))) x). }
  assert (Wn : forall sd, waiting (a_log a) sd (a_made a) = []).
  { intros sd. destruct (waiting (a_log a) sd (a_made a)) as [|[id tag] r] eqn:Ew; auto. exfalso.
    assert (Hi : In (id, tag) (waiting (a_log a) sd (a_made a))) by (rewrite Ew; simpl; auto).
    apply waiting_in in Hi. pose proof (iv_lmade _ I _ _ _ _ (proj1 Hi)). lia. }
  destruct I as [I1 [H1 H2 H3 H4 H5 H6] I2 I3 I4 I5 I6]. constructor; auto.
  - destruct W as [W1 W2 W3 W4]. constructor; auto.
  - constructor; cbn [a_log a_clock a' with_heads set_obj with_handles]; auto.
    + intros x k. rewrite C. destruct (x =? h); [intros X; injection X as <-; cbn; rewrite Wn; auto|eauto].
    + intros x k. rewrite C. destruct (x =? h); [intros X; injection X as <-; cbn; rewrite Wn; auto|eauto].
    + intros x q. rewrite R. destruct (x =? h); [discriminate|eauto].
    + intros x y q q' id. rewrite !R. destruct (x =? h), (y =? h); try discriminate. eauto.
    + intros x y k k'. rewrite !C. destruct (Z.eqb_spec x h), (Z.eqb_spec y h); subst; auto.
      * intros X Ek E'. injection X as <-. cbn in E'. specialize (I4 _ _ Ek). lia.
      * intros Ek X E'. injection X as <-. cbn in E'. specialize (I4 _ _ Ek). lia.
      * eauto.
  - intros x k p. rewrite C, R. destruct (Z.eqb_spec x h); [intros X; injection X as <-; intros []|]. intros Ek Hp.
    pose proof (I2 _ _ _ Ek Hp) as Er. destruct (Z.eqb_spec (p_req p) h) as [Eh|]; auto. congruence.
  - intros x k p. rewrite C, R. destruct (Z.eqb_spec x h); [intros X; injection X as <-; intros []|]. intros Ek Hp.
    pose proof (I3 _ _ _ Ek Hp) as Er. destruct (Z.eqb_spec (p_req p) h) as [Eh|]; auto. congruence.
  - intros x k. rewrite C. cbn. destruct (x =? h); [intros X; injection X as <-; cbn; lia|]. intros Ek. specialize (I4 _ _ Ek). lia.
  - cbn. intros. specialize (I5 _ _ _ _ H). lia.
  - intros x k p q. rewrite C. destruct (x =? h); [intros X; injection X as <-; intros []|eauto].
Qed.

(** *** The log *)
Lemma log_post l n sd uid tag : log_ok l n -> log_ok (l ++ [EPost n sd uid tag]) (n + 1).
Proof.
  intros (E & N & M). split; [|split; [lia|]].
  - rewrite post_ids_app, E. cbn [post_ids flat_map app]. replace (Z.to_nat (n + 1)) with (S (Z.to_nat n)) by lia.
    rewrite seq_S, map_app. cbn [map Nat.add]. rewrite Z2Nat.id by lia. reflexivity.
  - intros l1 s r l2 El. destruct (exists_last (l := EMatch s r :: l2)) as (l2' & z & Ez); [discriminate|]. rewrite Ez, app_assoc in El.
    apply app_inj_tail in El. destruct El as [El Ezz]. destruct l2' as [|y l2'].
    + cbn in Ez. injection Ez as Ez _. congruence.
    + cbn in Ez. injection Ez as <- Ez. eapply M; eauto.
Qed.
Lemma log_match l n s r : log_ok l n -> match_ok l s r -> log_ok (l ++ [EMatch s r]) n.
Proof.
  intros (E & N & M) Hm. split; [|split; [lia|]].
  - rewrite post_ids_app, E. apply app_nil_r.
  - intros l1 s' r' l2 El. destruct (exists_last (l := EMatch s' r' :: l2)) as (l2' & z & Ez); [discriminate|]. rewrite Ez, app_assoc in El.
    apply app_inj_tail in El. destruct El as [El Ezz]. destruct l2' as [|y l2'].
    + cbn in Ez. injection Ez as Ez _. rewrite app_nil_r in El. assert (EMatch s r = EMatch s' r') by congruence. injection H as <- <-. subst l1. exact Hm.
    + cbn in Ez. injection Ez as <- Ez. eapply M; eauto.
Qed.

Lemma in_last {A} (x y : A) l : In x (l ++ [y]) <-> In x l \/ x = y.
Proof. rewrite in_app_iff. simpl. intuition. Qed.
Lemma matched_post l id sd uid tag x : matched (l ++ [EPost id sd uid tag]) x <-> matched l x.
Proof. rewrite matched_app. split; [intros [H|(s & r & Hi & _)]; auto; destruct Hi as [Hi|[]]; discriminate|auto]. Qed.
Lemma matched_match l s r x : matched (l ++ [EMatch s r]) x <-> matched l x \/ s = x \/ r = x.
Proof.
  rewrite matched_app. split; (intros [H|H]; [auto|right]).
  - destruct H as (s' & r' & [Hi|[]] & H). injection Hi as -> ->. auto.
  - exists s, r. simpl. auto.
Qed.
Lemma known_post l id sd uid tag q : req_known l q -> req_known (l ++ [EPost id sd uid tag]) q.
Proof.
  destruct q; cbn; auto.
  - intros ((t & H) & N). split; [exists t; apply in_last; auto|]. rewrite matched_post. auto.
  - intros (u & t & r & H & H'). exists u, t, r. rewrite !in_last. auto.
  - intros (u & t & r & H & H' & H''). exists u, t, r. rewrite !in_last. auto.
Qed.
Lemma known_match l s r q : req_known l q -> (forall sd uid id, q = QPending sd uid id -> id <> s /\ id <> r) -> req_known (l ++ [EMatch s r]) q.
Proof.
  destruct q; cbn; auto.
  - intros ((t & H) & N) D. split; [exists t; apply in_last; auto|]. rewrite matched_match. destruct (D _ _ _ eq_refl). intuition congruence.
  - intros (u & t & r' & H & H') _. exists u, t, r'. rewrite !in_last. auto.
  - intros (u & t & r' & H & H' & H'') _. exists u, t, r'. rewrite !in_last. auto.
Qed.
Lemma known_posted l q id : req_known l q -> op_id q = Some id -> exists sd uid tag, In (EPost id sd uid tag) l.
Proof.
  destruct q; cbn; try discriminate; intros H E; injection E as <-.
  - destruct H as ((t & H) & _). eauto.
  - destruct H as (u & t & r & H & _). eauto.
  - destruct H as (u & t & r & H & _). eauto.
Qed.

(** *** Posting *)
Lemma inv_q a sd h k p : inv a -> comm_at a h = Some k -> In p (line sd k) -> req_at a (p_req p) = Some (QPending sd (k_uid k) (p_id p)).
Proof. intros I. destruct sd; [apply (iv_qs _ I)|apply (iv_qr _ I)]. Qed.
Lemma inv_wait a sd h k : inv a -> comm_at a h = Some k -> map (fun p => (p_id p, p_tag p)) (line sd k) = waiting (a_log a) sd (k_uid k).
Proof. intros I. destruct sd; [apply (hy_sends _ (iv_hist _ I))|apply (hy_recvs _ (iv_hist _ I))]. Qed.
Lemma inv_goes a sd h k p q : inv a -> comm_at a h = Some k -> In p (line sd k) -> In q (line (other sd) k) -> goes_with sd (p_tag p) (p_tag q) = false.
Proof. intros I E. destruct sd; cbn; intros; eapply (iv_apart _ I); eauto. Qed.
Lemma goes_other sd t t' : goes_with (other sd) t' t = goes_with sd t t'.
Proof. destruct sd; reflexivity. Qed.

Lemma waiting_queue a sd h k id tag : inv a -> comm_at a h = Some k -> In (EPost id sd (k_uid k) tag) (a_log a) -> ~ matched (a_log a) id ->
  exists p, In p (line sd k) /\ p_id p = id /\ p_tag p = tag.
Proof.
  intros I E Hi N. assert (Hw : In (id, tag) (waiting (a_log a) sd (k_uid k))) by (apply waiting_in; auto).
  rewrite <- (inv_wait _ sd _ _ I E) in Hw. apply in_map_iff in Hw. destruct Hw as (p & Ep & Hp). injection Ep as E1 E2. eauto.
Qed.
Lemma queue_waiting a sd h k p : inv a -> comm_at a h = Some k -> In p (line sd k) ->
  In (EPost (p_id p) sd (k_uid k) (p_tag p)) (a_log a) /\ ~ matched (a_log a) (p_id p).
Proof.
  intros I E Hp. apply waiting_in. rewrite <- (inv_wait _ sd _ _ I E). apply in_map_iff. eauto.
Qed.
Lemma queue_sorted a sd h k : inv a -> comm_at a h = Some k -> StronglySorted Z.lt (map p_id (line sd k)).
Proof.
  intros I E. pose proof (sorted_waiting _ _ sd (k_uid k) (hy_log _ (iv_hist _ I))) as S. rewrite <- (inv_wait _ sd _ _ I E), map_map in S. exact S.
Qed.

Lemma same_side_refl sd : same_side sd sd = true. Proof. destruct sd; reflexivity. Qed.
Lemma same_side_other sd : same_side sd (other sd) = false /\ same_side (other sd) sd = false. Proof. destruct sd; auto. Qed.
Lemma same_side_eq x y : same_side x y = true -> x = y. Proof. destruct x, y; congruence || discriminate. Qed.

Lemma inv_post a a' comm k k' sd hr tag p :
  inv a -> hw a' -> comm_at a comm = Some k -> req_at a hr = None ->
  (forall x, comm_at a' x = if x =? comm then Some k' else comm_at a x) ->
  (forall x, req_at a' x = if x =? hr then Some (QPending sd (k_uid k) (a_clock a)) else req_at a x) ->
  a_log a' = a_log a ++ [EPost (a_clock a) sd (k_uid k) tag] -> a_clock a' = a_clock a + 1 -> a_made a' = a_made a ->
  k_uid k' = k_uid k -> p_id p = a_clock a -> p_req p = hr -> p_tag p = tag ->
  line sd k' = line sd k ++ [p] -> line (other sd) k' = line (other sd) k ->
  (forall q, In q (line (other sd) k) -> goes_with sd tag (p_tag q) = false) -> inv a'.
Proof.
  intros I W Ek Nr C R L K Md Eu Pi Pr Pt Q1 Q2 F. pose proof (iv_hist _ I) as Hy. pose proof (hy_log _ Hy) as LO.
  pose proof (fresh_unmatched _ _ _ LO (Z.le_refl _)) as NM.
  assert (Wt : forall sd' h k1, comm_at a' h = Some k1 -> map (fun p => (p_id p, p_tag p)) (line sd' k1) = waiting (a_log a') sd' (k_uid k1)).
  { intros sd' h k1. rewrite C, L, (waiting_post _ _ _ _ _ _ _ NM). destruct (Z.eqb_spec h comm) as [->|Nh].
    - intros X. injection X as <-. rewrite Eu, Z.eqb_refl, andb_true_r. destruct (same_side sd' sd) eqn:Es.
      + apply same_side_eq in Es. subst sd'. rewrite Q1, map_app, (inv_wait _ sd _ _ I Ek). cbn. rewrite Pi, Pt. reflexivity.
      + assert (sd' = other sd) by (destruct sd, sd'; cbn in *; congruence). subst sd'. rewrite Q2, app_nil_r. apply (inv_wait _ (other sd) _ _ I Ek).
    - intros X. rewrite (inv_wait _ sd' _ _ I X). assert (k_uid k1 =? k_uid k = false).
      { apply Z.eqb_neq. intros Eq. apply Nh. eapply (hy_uid _ Hy); eauto. }
      rewrite H, andb_false_r, app_nil_r. reflexivity. }
  assert (Qt : forall sd' h k1 p1, comm_at a' h = Some k1 -> In p1 (line sd' k1) -> req_at a' (p_req p1) = Some (QPending sd' (k_uid k1) (p_id p1))).
  { intros sd' h k1 p1. rewrite C, R. destruct (Z.eqb_spec h comm) as [->|Nh].
    - intros X. injection X as <-. rewrite Eu. intros Hp.
      assert (Old : In p1 (line sd' k) -> (if p_req p1 =? hr then Some (QPending sd (k_uid k) (a_clock a)) else req_at a (p_req p1)) = Some (QPending sd' (k_uid k) (p_id p1))).
      { intros Hq. pose proof (inv_q _ sd' _ _ _ I Ek Hq) as E'. destruct (Z.eqb_spec (p_req p1) hr); congruence. }
      destruct (same_side sd' sd) eqn:Es.
      + apply same_side_eq in Es. subst sd'. rewrite Q1 in Hp. apply in_last in Hp. destruct Hp as [Hp| ->]; auto. rewrite Pr, Z.eqb_refl, Pi. reflexivity.
      + assert (sd' = other sd) by (destruct sd, sd'; cbn in *; congruence). subst sd'. rewrite Q2 in Hp. auto.
    - intros X Hp. pose proof (inv_q _ sd' _ _ _ I X Hp) as E'. destruct (Z.eqb_spec (p_req p1) hr); congruence. }
  constructor; auto.
  - constructor.
    + rewrite L, K. apply log_post, LO.
    + intros h k1. apply (Wt Snd).
    + intros h k1. apply (Wt Rcv).
    + intros h q. rewrite R, L. destruct (h =? hr).
      * intros X. injection X as <-. cbn. split; [exists tag; apply in_last; auto|]. rewrite matched_post. exact NM.
      * intros X. apply known_post. apply (hy_req _ Hy _ _ X).
    + intros h h' q q' id. rewrite !R. destruct (Z.eqb_spec h hr), (Z.eqb_spec h' hr); try congruence.
      * intros X X' O O'. injection X as <-. injection O as <-. exfalso.
        destruct (known_posted _ _ _ (hy_req _ Hy _ _ X') O') as (? & ? & ? & Hi). apply (posted_lt _ _ _ _ _ _ LO) in Hi. lia.
      * intros X X' O O'. injection X' as <-. injection O' as <-. exfalso.
        destruct (known_posted _ _ _ (hy_req _ Hy _ _ X) O) as (? & ? & ? & Hi). apply (posted_lt _ _ _ _ _ _ LO) in Hi. lia.
      * apply (hy_once _ Hy).
    + intros h h' k1 k2. rewrite !C. intros X X' E'.
      assert (Y : exists k3, comm_at a h = Some k3 /\ k_uid k3 = k_uid k1) by (destruct (Z.eqb_spec h comm); [injection X as <-; subst; eauto|eauto]).
      assert (Y' : exists k3, comm_at a h' = Some k3 /\ k_uid k3 = k_uid k2) by (destruct (Z.eqb_spec h' comm); [injection X' as <-; subst; eauto|eauto]).
      destruct Y as (k3 & Y1 & Y2). destruct Y' as (k4 & Y3 & Y4). eapply (hy_uid _ Hy); eauto. congruence.
  - intros h k1 p1. apply (Qt Snd).
  - intros h k1 p1. apply (Qt Rcv).
  - intros h k1. rewrite C, Md. destruct (h =? comm); [|apply (iv_made _ I)]. intros X. injection X as <-. rewrite Eu. eapply (iv_made _ I); eauto.
  - intros id sd1 uid1 tag1. rewrite L, Md, in_last. intros [Hi|Hi]; [eapply (iv_lmade _ I); eauto|]. injection Hi as -> -> -> ->. eapply (iv_made _ I); eauto.
  - intros h k1 p1 q1. rewrite C. destruct (Z.eqb_spec h comm) as [->|]; [|apply (iv_apart _ I)]. intros X. injection X as <-.
    destruct sd; cbn in Q1, Q2, F; rewrite Q1, Q2; rewrite in_last.
    + intros [Hp| ->] Hq; [eapply (iv_apart _ I); eauto|]. rewrite Pt. auto.
    + intros Hp [Hq| ->]; [eapply (iv_apart _ I); eauto|]. rewrite Pt. auto.
Qed.

(** *** Matching *)
Lemma inv_match a a' comm k k' sd hr tag b p e :
  inv a -> hw a' -> comm_at a comm = Some k -> req_at a hr = None -> comm_at a hr = None ->
  line (other sd) k = b ++ p :: e -> goes_with sd tag (p_tag p) = true -> (forall q, In q b -> goes_with sd tag (p_tag q) = false) ->
  (forall x, comm_at a' x = if x =? comm then Some k' else comm_at a x) ->
  (forall x, req_at a' x = if x =? p_req p then Some (done_req (other sd) (p_id p) (msg_tag sd tag (p_tag p)))
                           else if x =? hr then Some (done_req sd (a_clock a) (msg_tag sd tag (p_tag p))) else req_at a x) ->
  a_log a' = a_log a ++ [EPost (a_clock a) sd (k_uid k) tag; match_ev sd (a_clock a) (p_id p)] -> a_clock a' = a_clock a + 1 -> a_made a' = a_made a ->
  k_uid k' = k_uid k -> line sd k' = line sd k -> line (other sd) k' = b ++ e -> inv a'.
Proof.
  intros I W Ek Nr Nc Qe Fp Fb C R L K Md Eu Q1 Q2. pose proof (iv_hist _ I) as Hy. pose proof (hy_log _ Hy) as LO.
  pose proof (fresh_unmatched _ _ _ LO (Z.le_refl _)) as NM.
  set (id := a_clock a) in *. set (l1 := a_log a ++ [EPost id sd (k_uid k) tag]).
  assert (L' : a_log a' = l1 ++ [match_ev sd id (p_id p)]) by (unfold l1; rewrite L, <- app_assoc; reflexivity).
  assert (LO1 : log_ok l1 (id + 1)) by (apply log_post; exact LO).
  assert (Hp : In p (line (other sd) k)) by (rewrite Qe; apply in_or_app; simpl; auto).
  destruct (queue_waiting _ _ _ _ _ I Ek Hp) as [Pp Pn].
  pose proof (posted_lt _ _ _ _ _ _ LO Pp) as Plt. fold id in Plt.
  pose proof (inv_q _ _ _ _ _ I Ek Hp) as Pq.
  assert (Nhp : p_req p <> hr) by congruence.
  pose proof (queue_sorted _ (other sd) _ _ I Ek) as SS. rewrite Qe, map_app in SS. cbn [map] in SS.
  destruct (sorted_split _ _ _ SS) as [Sb Se].
  assert (In1 : forall x, In x (a_log a) -> In x l1) by (intros; apply in_last; auto).
  assert (Inew : In (EPost id sd (k_uid k) tag) l1) by (apply in_last; auto).
  (* earlier operations of the same side *)
  assert (Own : forall id' tag', In (EPost id' sd (k_uid k) tag') l1 -> id' < id -> goes_with sd tag' (p_tag p) = true -> matched l1 id').
  { intros id' tag' Hi Hlt Hf. apply in_last in Hi. destruct Hi as [Hi|Hi]; [|injection Hi as -> ->; lia].
    apply matched_post. destruct (matchedb (a_log a) id') eqn:Em; [apply matchedb_ok; exact Em|]. exfalso. apply matchedb_no in Em.
    destruct (waiting_queue _ _ _ _ _ _ I Ek Hi Em) as (q & Hq & Eq1 & Eq2). pose proof (inv_goes _ sd _ _ _ _ I Ek Hq Hp). congruence. }
  (* earlier operations of the other side *)
  assert (Oth : forall id' tag', In (EPost id' (other sd) (k_uid k) tag') l1 -> id' < p_id p -> goes_with sd tag tag' = true -> matched l1 id').
  { intros id' tag' Hi Hlt Hf. apply in_last in Hi. destruct Hi as [Hi|Hi]; [|injection Hi; destruct sd; discriminate].
    apply matched_post. destruct (matchedb (a_log a) id') eqn:Em; [apply matchedb_ok; exact Em|]. exfalso. apply matchedb_no in Em.
    destruct (waiting_queue _ _ _ _ _ _ I Ek Hi Em) as (q & Hq & Eq1 & Eq2). rewrite Qe in Hq. apply in_app_iff in Hq. destruct Hq as [Hq|[<-|Hq]].
    - specialize (Fb _ Hq). congruence.
    - lia.
    - specialize (Se (p_id q) ltac:(apply in_map; auto)). lia. }
  assert (MO : match sd with Snd => match_ok l1 id (p_id p) | Rcv => match_ok l1 (p_id p) id end).
  { assert (~ matched l1 id) by (unfold l1; rewrite matched_post; auto). assert (~ matched l1 (p_id p)) by (unfold l1; rewrite matched_post; auto).
    destruct sd; cbn in *.
    - exists (k_uid k), tag, (p_tag p). split; [exact Inew|]. split; [auto|]. split; [auto|]. split; [auto|]. split; [auto|]. split; [exact Own|exact Oth].
    - exists (k_uid k), (p_tag p), tag. split; [auto|]. split; [exact Inew|]. split; [auto|]. split; [auto|]. split; [auto|]. split; [exact Oth|exact Own]. }
  assert (LO2 : log_ok (a_log a') (id + 1)) by (rewrite L'; destruct sd; apply log_match; auto).
  assert (MM : forall x, matched (a_log a') x <-> matched (a_log a) x \/ x = id \/ x = p_id p).
  { intros x. rewrite L'. unfold l1. destruct sd; cbn [match_ev]; rewrite matched_match, matched_post; intuition. }
  assert (Wt : forall sd' h k1, comm_at a' h = Some k1 -> map (fun p => (p_id p, p_tag p)) (line sd' k1) = waiting (a_log a') sd' (k_uid k1)).
  { intros sd' h k1 X.
    assert (Wf : waiting (a_log a') sd' (k_uid k1) = filter (fun x => negb (id =? fst x) && negb (p_id p =? fst x)) (waiting (a_log a) sd' (k_uid k1))).
    { rewrite L'. transitivity (filter (fun x => negb (id =? fst x) && negb (p_id p =? fst x)) (waiting l1 sd' (k_uid k1))).
      - destruct sd; cbn [match_ev]; rewrite waiting_match; apply filter_ext; intros x; rewrite negb_orb; [reflexivity|apply andb_comm].
      - unfold l1. rewrite (waiting_post _ _ _ _ _ _ _ NM), filter_app. destruct (same_side sd' sd && (k_uid k1 =? k_uid k)); [|apply app_nil_r].
        cbn [filter fst]. rewrite Z.eqb_refl. cbn. apply app_nil_r. }
    rewrite Wf. clear Wf.
    assert (Keep : forall k2, comm_at a h = Some k2 -> k_uid k2 = k_uid k1 ->
       (forall q, In q (line sd' k2) -> p_id q <> p_id p) ->
       map (fun p => (p_id p, p_tag p)) (line sd' k2) = filter (fun x => negb (id =? fst x) && negb (p_id p =? fst x)) (waiting (a_log a) sd' (k_uid k1))).
    { intros k2 E2 E3 D. rewrite <- E3, <- (inv_wait _ sd' _ _ I E2). symmetry. apply filter_all. intros [i t] Hx. cbn [fst].
      apply in_map_iff in Hx. destruct Hx as (q & Eq & Hq). injection Eq as <- <-.
      destruct (queue_waiting _ _ _ _ _ I E2 Hq) as [Hq1 _]. pose proof (posted_lt _ _ _ _ _ _ LO Hq1). fold id in H.
      specialize (D _ Hq). destruct (Z.eqb_spec id (p_id q)); [lia|]. destruct (Z.eqb_spec (p_id p) (p_id q)); [lia|]. reflexivity. }
    rewrite C in X. destruct (Z.eqb_spec h comm) as [->|Nh].
    - injection X as <-. destruct (same_side sd' sd) eqn:Es.
      + apply same_side_eq in Es. subst sd'. rewrite Q1. apply Keep; auto. intros q Hq Eq.
        destruct (queue_waiting _ _ _ _ _ I Ek Hq) as [Hq1 _]. rewrite Eq in Hq1. destruct (post_once _ _ _ _ _ _ _ _ _ LO Hq1 Pp) as [E' _]. destruct sd; discriminate.
      + assert (sd' = other sd) by (destruct sd, sd'; cbn in *; congruence). subst sd'. rewrite Q2, Eu, <- (inv_wait _ (other sd) _ _ I Ek), Qe.
        rewrite !map_app, filter_app. cbn [map filter fst]. rewrite Z.eqb_refl. rewrite andb_false_r.
        rewrite !filter_all; [reflexivity| |].
        * intros [i t] Hx. apply in_map_iff in Hx. destruct Hx as (q & Eq & Hq). injection Eq as <- <-. cbn [fst].
          assert (Hq' : In q (line (other sd) k)) by (rewrite Qe; apply in_or_app; simpl; auto).
          destruct (queue_waiting _ _ _ _ _ I Ek Hq') as [Hq1 _]. pose proof (posted_lt _ _ _ _ _ _ LO Hq1). fold id in H.
          specialize (Se (p_id q) ltac:(apply in_map; auto)). destruct (Z.eqb_spec id (p_id q)); [lia|]. destruct (Z.eqb_spec (p_id p) (p_id q)); [lia|]. reflexivity.
        * intros [i t] Hx. apply in_map_iff in Hx. destruct Hx as (q & Eq & Hq). injection Eq as <- <-. cbn [fst].
          assert (Hq' : In q (line (other sd) k)) by (rewrite Qe; apply in_or_app; simpl; auto).
          destruct (queue_waiting _ _ _ _ _ I Ek Hq') as [Hq1 _]. pose proof (posted_lt _ _ _ _ _ _ LO Hq1). fold id in H.
          specialize (Sb (p_id q) ltac:(apply in_map; auto)). destruct (Z.eqb_spec id (p_id q)); [lia|]. destruct (Z.eqb_spec (p_id p) (p_id q)); [lia|]. reflexivity.
    - apply Keep; auto. intros q Hq Eq. destruct (queue_waiting _ _ _ _ _ I X Hq) as [Hq1 _]. rewrite Eq in Hq1.
      destruct (post_once _ _ _ _ _ _ _ _ _ LO Hq1 Pp) as (_ & E' & _). apply Nh. eapply (hy_uid _ Hy); eauto. }
  assert (Qt : forall sd' h k1 p1, comm_at a' h = Some k1 -> In p1 (line sd' k1) -> req_at a' (p_req p1) = Some (QPending sd' (k_uid k1) (p_id p1))).
  { intros sd' h k1 p1 X Hq.
    assert (Np : p_id p1 <> p_id p).
    { intros Eq. assert (Hw : In (p_id p1, p_tag p1) (waiting (a_log a') sd' (k_uid k1))) by (rewrite <- (Wt _ _ _ X); apply in_map_iff; eauto).
      apply waiting_in in Hw. destruct Hw as [_ Hw]. apply Hw. apply MM. auto. }
    rewrite C in X. rewrite R.
    assert (Keep : forall k2, comm_at a h = Some k2 -> k_uid k2 = k_uid k1 -> In p1 (line sd' k2) ->
       (if p_req p1 =? p_req p then Some (done_req (other sd) (p_id p) (msg_tag sd tag (p_tag p)))
        else if p_req p1 =? hr then Some (done_req sd id (msg_tag sd tag (p_tag p))) else req_at a (p_req p1)) = Some (QPending sd' (k_uid k1) (p_id p1))).
    { intros k2 E2 E3 Hq2. pose proof (inv_q _ sd' _ _ _ I E2 Hq2) as E'. rewrite E3 in E'.
      destruct (Z.eqb_spec (p_req p1) (p_req p)) as [Er|]; [exfalso; rewrite Er in E'; congruence|]. destruct (Z.eqb_spec (p_req p1) hr); congruence. }
    destruct (Z.eqb_spec h comm) as [->|Nh].
    - injection X as <-. apply (Keep k); auto. destruct (same_side sd' sd) eqn:Es.
      + apply same_side_eq in Es. subst sd'. congruence.
      + assert (sd' = other sd) by (destruct sd, sd'; cbn in *; congruence). subst sd'. rewrite Q2 in Hq. rewrite Qe.
        apply in_app_iff in Hq. apply in_or_app. simpl. intuition.
    - apply (Keep k1); auto. }
  constructor; auto.
  - constructor.
    + rewrite K. exact LO2.
    + intros h k1. apply (Wt Snd).
    + intros h k1. apply (Wt Rcv).
    + intros h q. rewrite R. destruct (Z.eqb_spec h (p_req p)) as [->|Nh1]; [|destruct (Z.eqb_spec h hr) as [->|Nh2]].
      * intros X. injection X as <-. rewrite L'. destruct sd; cbn.
        -- exists (k_uid k), (p_tag p), id. rewrite !in_last. auto.
        -- exists (k_uid k), (p_tag p), id. rewrite !in_last. auto.
      * intros X. injection X as <-. rewrite L'. destruct sd; cbn.
        -- exists (k_uid k), tag, (p_id p). rewrite !in_last. auto.
        -- exists (k_uid k), tag, (p_id p). rewrite !in_last. auto.
      * intros X. rewrite L'. pose proof (hy_req _ Hy _ _ X) as Kq.
        assert (D : forall sd1 uid1 id1, q = QPending sd1 uid1 id1 -> id1 <> id /\ id1 <> p_id p).
        { intros sd1 uid1 id1 ->. split.
          - intros ->. cbn in Kq. destruct Kq as ((t & Hi) & _). apply (posted_lt _ _ _ _ _ _ LO) in Hi. unfold id in Hi. lia.
          - intros ->. apply Nh1. eapply (hy_once _ Hy); [exact X|exact Pq|reflexivity|reflexivity]. }
        destruct sd; cbn [match_ev]; apply known_match; try (apply known_post; exact Kq); intros s1 u1 i1 Eq; destruct (D _ _ _ Eq); auto.
    + assert (OW : forall h q i, req_at a' h = Some q -> op_id q = Some i -> (h = hr /\ i = id) \/ (exists q', req_at a h = Some q' /\ op_id q' = Some i)).
      { intros h q i. rewrite R. destruct (Z.eqb_spec h (p_req p)) as [->|Nh1]; [|destruct (Z.eqb_spec h hr) as [->|Nh2]].
        - intros X O. injection X as <-. right. exists (QPending (other sd) (k_uid k) (p_id p)). split; [exact Pq|]. destruct sd; exact O.
        - intros X O. injection X as <-. left. split; auto. destruct sd; cbn in O; congruence.
        - intros X O. eauto. }
      intros h h' q q' i X X' O O'. destruct (OW _ _ _ X O) as [[-> ->]|(q1 & Y & O1)]; destruct (OW _ _ _ X' O') as [[-> E']|(q2 & Y' & O2)]; auto.
      * exfalso. destruct (known_posted _ _ _ (hy_req _ Hy _ _ Y') O2) as (? & ? & ? & Hi). apply (posted_lt _ _ _ _ _ _ LO) in Hi. unfold id in Hi; lia.
      * exfalso. destruct (known_posted _ _ _ (hy_req _ Hy _ _ Y) O1) as (? & ? & ? & Hi). apply (posted_lt _ _ _ _ _ _ LO) in Hi. unfold id in E'; lia.
      * eapply (hy_once _ Hy); eauto.
    + intros h h' k1 k2. rewrite !C. intros X X' E'.
      assert (Y : exists k3, comm_at a h = Some k3 /\ k_uid k3 = k_uid k1) by (destruct (Z.eqb_spec h comm); [injection X as <-; subst; eauto|eauto]).
      assert (Y' : exists k3, comm_at a h' = Some k3 /\ k_uid k3 = k_uid k2) by (destruct (Z.eqb_spec h' comm); [injection X' as <-; subst; eauto|eauto]).
      destruct Y as (k3 & Y1 & Y2). destruct Y' as (k4 & Y3 & Y4). eapply (hy_uid _ Hy); eauto. congruence.
  - intros h k1 p1. apply (Qt Snd).
  - intros h k1 p1. apply (Qt Rcv).
  - intros h k1. rewrite C, Md. destruct (h =? comm); [|apply (iv_made _ I)]. intros X. injection X as <-. rewrite Eu. eapply (iv_made _ I); eauto.
  - intros id1 sd1 uid1 tag1. rewrite L', Md, in_last. unfold l1. rewrite in_last. intros [[Hi|Hi]|Hi]; [eapply (iv_lmade _ I); eauto| |destruct sd; discriminate].
    injection Hi as -> -> -> ->. eapply (iv_made _ I); eauto.
  - intros h k1 p1 q1. rewrite C. destruct (Z.eqb_spec h comm) as [->|]; [|apply (iv_apart _ I)]. intros X. injection X as <-.
    assert (Sub : forall x, In x (b ++ e) -> In x (line (other sd) k)) by (intros x; rewrite Qe, !in_app_iff; simpl; intuition).
    destruct sd; cbn in Q1, Q2, Sub; rewrite Q1, Q2; intros H1 H2; eapply (iv_apart _ I); eauto.
Qed.

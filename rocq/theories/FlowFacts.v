(** Proof that no call looks at the bytes it moves: the model is parametric in them. *)
From Verif Require Import Base ListModel HandleModel TypeModel CopyModel SysModel CollModel SysCalls FlowSpec.

Section Flow.
Variable R : Z -> Z -> Prop.

Lemma ends_bind {A B A' B'} (Q : A -> A' -> Prop) (P : B -> B' -> Prop) r r' f f' :
  ends Q r r' -> (forall x y, Q x y -> ends P (f x) (f' y)) -> ends P (bind r f) (bind r' f').
Proof. destruct r, r'; cbn; intros H K; try contradiction; try exact H; apply K, H. Qed.
Lemma ends_refl {A} (Q : A -> A -> Prop) r : (forall x, Q x x) -> ends Q r r.
Proof. destruct r; cbn; auto. Qed.
Lemma ends_same {A B B'} (P : B -> B' -> Prop) (r : res A) f f' :
  (forall x, ends P (f x) (f' x)) -> ends P (bind r f) (bind r f').
Proof. destruct r; cbn; auto. Qed.
Lemma ends_for {S S'} (Q : S -> S' -> Prop) b b' :
  (forall i x y, Q x y -> ends Q (b i x) (b' i y)) ->
  forall lo hi x y, Q x y -> ends Q (for_loop lo hi b x) (for_loop lo hi b' y).
Proof.
  intros H lo hi. unfold for_loop. generalize (Z.to_nat (hi - lo)) as n. intros n. revert lo.
  induction n as [|n IH]; intros lo x y E; cbn [for_from]; [exact E|].
  eapply ends_bind; [apply H, E|]. intros. apply IH. assumption.
Qed.

(** Copies. *)
Lemma mems_allocated m m' a n : mems R m m' -> allocated m a n = allocated m' a n.
Proof.
  intros H. unfold allocated. generalize (List.seq 0 (Z.to_nat n)) as l. induction l as [|k l IH]; [reflexivity|].
  cbn [forallb]. rewrite IH. f_equal. specialize (H (a + Z.of_nat k)). unfold cells in H.
  destruct (m _), (m' _); cbn; congruence || contradiction.
Qed.
Lemma mems_memcpy m m' d s n : mems R m m' -> ends (mems R) (memcpy m d s n) (memcpy m' d s n).
Proof.
  intros H. unfold memcpy. rewrite <- !(mems_allocated m m' _ _ H).
  destruct (_ && _); cbn; [|reflexivity]. intros a. destruct (_ && _); apply H.
Qed.
Definition mpos (x y : mem * Z) : Prop := mems R (fst x) (fst y) /\ snd x = snd y.
Lemma mems_copy c m m' a n t b k u : mems R m m' -> ends (mems R) (Pcopy_data2 c m a n t b k u) (Pcopy_data2 c m' a n t b k u).
Proof.
  intros H. unfold Pcopy_data2. destruct (_ || _); [cbn; auto|].
  do 2 (apply ends_same; intros ?). destruct (_ <? _); [cbn; auto|].
  do 2 (apply ends_same; intros ?). apply ends_for; [|exact H]. intros i m0 m1 H0.
  do 4 (apply ends_same; intros ?). destruct (_ && _); [cbn; auto|].
  do 3 (apply ends_same; intros ?). apply mems_memcpy, H0.
Qed.
Lemma mems_pack c m m' a n t b z p : mems R m m' -> ends mpos (Pack c m a n t b z p) (Pack c m' a n t b z p).
Proof.
  intros H. unfold Pack. apply ends_same; intros ext. apply ends_for; [|split; [exact H|reflexivity]].
  intros i x y E. apply ends_for; [|exact E]. clear x y E. intros j [m0 p0] [m1 p1] [E F]. cbn in E, F. subst p1.
  do 3 (apply ends_same; intros ?). destruct (_ >? _); [cbn; auto|].
  eapply ends_bind; [apply mems_memcpy, E|]. intros ? ? G. split; [exact G|reflexivity].
Qed.
Lemma mems_unpack c m m' a z p b n t : mems R m m' -> ends mpos (Unpack c m a z p b n t) (Unpack c m' a z p b n t).
Proof.
  intros H. unfold Unpack. apply ends_same; intros ext. apply ends_for; [|split; [exact H|reflexivity]].
  intros i x y E. apply ends_for; [|exact E]. clear x y E. intros j [m0 p0] [m1 p1] [E F]. cbn in E, F. subst p1.
  do 3 (apply ends_same; intros ?). destruct (_ >? _); [cbn; auto|].
  eapply ends_bind; [apply mems_memcpy, E|]. intros ? ? G. split; [exact G|reflexivity].
Qed.

(** Results with states. *)
Definition both {A} (x y : A * sys) : Prop := fst x = fst y /\ states R (snd x) (snd y).
Definition blind {A} (f f' : M A) : Prop := forall s s', states R s s' -> ends both (f s) (f' s').

Lemma b_ret {A} (x : A) : blind (ret x) (ret x).
Proof. intros s s' H. split; [reflexivity|exact H]. Qed.
Lemma b_pure {A} (r : res A) : blind (pure r) (pure r).
Proof. intros s s' H. apply ends_same. intros x. split; [reflexivity|exact H]. Qed.
Lemma b_bind {A B} (e : M A) (f g : A -> M B) : blind e e -> (forall x, blind (f x) (g x)) -> blind (mbind e f) (mbind e g).
Proof.
  intros H K s s' E. eapply ends_bind; [apply H, E|]. intros [x t] [y t'] [F G]. cbn in F. subst y. apply K, G.
Qed.
Lemma b_mmap {A B} (g : A -> B) (e : M A) : blind e e -> blind (mmap g e) (mmap g e).
Proof. intros H. apply b_bind; [exact H|]. intros. apply b_ret. Qed.
(** A function that reads anything but memory. *)
Lemma b_gets {A} (f : sys -> res A) : (forall s m, f (set_mem s m) = f s) -> blind (gets f) (gets f).
Proof. intros K s s' [E ->]. unfold gets. rewrite K. apply ends_same. intros x. split; [reflexivity|]. split; [exact E|reflexivity]. Qed.
(** A function that reads and changes anything but memory. *)
Lemma b_step {A} (f : M A) :
  (forall s m, f (set_mem s m) = do (x, t) <- f s; Ok (x, set_mem t m)) -> (forall s x t, f s = Ok (x, t) -> s_mem t = s_mem s) -> blind f f.
Proof.
  intros K L s s' [E ->]. rewrite K. destruct (f s) as [[x t]| | | |] eqn:F; cbn; auto.
  split; [reflexivity|]. unfold states. cbn. rewrite (L _ _ _ F). split; [exact E|reflexivity].
Qed.

Ltac stepper := apply b_step; intros s; [intros m; cbn; try (match goal with |- context [bind ?e _] => destruct e as [?| | | |] end; cbn; try reflexivity;
    repeat match goal with x : (_ * _)%type |- _ => destruct x end; reflexivity)
  | intros x t; cbn; match goal with |- context [bind ?e _] => destruct e as [?| | | |] | _ => idtac end; cbn; try discriminate;
    repeat match goal with x : (_ * _)%type |- _ => destruct x end; intros F; apply Ok_inj in F; apply (f_equal snd) in F; cbn in F; subst t; reflexivity].
Lemma b_handle_ptr h : blind (handle_ptr h) (handle_ptr h). Proof. unfold handle_ptr. stepper. Qed.
Lemma b_release h : blind (release h) (release h). Proof. unfold release. stepper. Qed.
Lemma b_read p : blind (read_slot p) (read_slot p). Proof. apply b_gets. reflexivity. Qed.
Lemma b_write p o : blind (write_slot p o) (write_slot p o). Proof. unfold write_slot. stepper. Qed.
Lemma b_alloc : blind alloc_slot alloc_slot. Proof. unfold alloc_slot. stepper. Qed.
Lemma b_lnew : blind l_new l_new. Proof. unfold l_new. stepper. Qed.
Lemma b_lfree l : blind (l_free l) (l_free l). Proof. unfold l_free. stepper. Qed.
Lemma b_lappend l p : blind (l_append l p) (l_append l p). Proof. unfold l_append. stepper. Qed.
Lemma b_ldelete l i : blind (l_delete l i) (l_delete l i). Proof. unfold l_delete. stepper. Qed.

Lemma b_fun {A} (x : A) (g : sys -> sys) :
  (forall s m, g (set_mem s m) = set_mem (g s) m) -> (forall s, s_mem (g s) = s_mem s) -> blind (fun s => Ok (x, g s)) (fun s => Ok (x, g s)).
Proof. intros K L s s' [E ->]. split; [reflexivity|]. unfold states. cbn. rewrite K. cbn. rewrite L. split; [exact E|reflexivity]. Qed.
Lemma b_mfor {B} n (body : Z -> B -> M B) b : (forall i x, blind (body i x) (body i x)) -> blind (mfor n body b) (mfor n body b).
Proof.
  intros H s s' E. unfold mfor. apply ends_for; [|split; [reflexivity|exact E]].
  intros i [x t] [y t'] [F G]. cbn in F |- *. subst y. apply H, G.
Qed.

Ltac walk1 := match goal with
  | |- blind (ret _) _ => apply b_ret
  | |- blind (pure _) _ => apply b_pure
  | |- blind (handle_ptr _) _ => apply b_handle_ptr
  | |- blind (release _) _ => apply b_release
  | |- blind (read_slot _) _ => apply b_read
  | |- blind (write_slot _ _) _ => apply b_write
  | |- blind alloc_slot _ => apply b_alloc
  | |- blind l_new _ => apply b_lnew
  | |- blind (l_free _) _ => apply b_lfree
  | |- blind (l_append _ _) _ => apply b_lappend
  | |- blind (l_delete _ _) _ => apply b_ldelete
  | |- blind (gets _) _ => apply b_gets; reflexivity
  | |- blind (fun s => Ok (_, _)) _ => apply b_fun; reflexivity
  | |- blind (mmap _ _) _ => apply b_mmap
  | |- blind (mbind _ _) _ => apply b_bind; [|intros ?]
  | |- blind (mfor _ _ _) _ => apply b_mfor; intros ? ?
  | |- blind (match ?x with _ => _ end) _ => destruct x
  end.
Ltac walk := repeat (cbv beta iota zeta; walk1).

Lemma b_get_comm p : blind (get_comm p) (get_comm p). Proof. unfold get_comm. walk. Qed.
Lemma b_get_req p : blind (get_req p) (get_req p). Proof. unfold get_req. walk. Qed.
Lemma b_upd_req p f : blind (upd_req p f) (upd_req p f). Proof. unfold upd_req. apply b_bind; [apply b_get_req|]. intros. apply b_write. Qed.
Lemma b_alloc_req : blind alloc_req alloc_req. Proof. unfold alloc_req. walk. Qed.
Lemma b_lsize l : blind (l_size l) (l_size l). Proof. apply b_gets. reflexivity. Qed.
Lemma b_ldata i : blind (l_data i) (l_data i). Proof. apply b_gets. reflexivity. Qed.
Lemma b_lsearch l f : blind (l_search l f) (l_search l f). Proof. apply b_gets. reflexivity. Qed.
Section Cfg.
Variable c : cfg.
Lemma b_get_type h : blind (get_type c h) (get_type c h). Proof. unfold get_type. walk. Qed.
Lemma b_copy a n t b k u : blind (copy_data2 c a n t b k u) (copy_data2 c a n t b k u).
Proof.
  unfold copy_data2. apply b_bind; [apply b_get_type|]. intros x. apply b_bind; [apply b_get_type|]. intros y s s' [E ->].
  eapply ends_bind; [apply mems_copy, E|]. intros m m' F. split; [reflexivity|]. split; [exact F|reflexivity].
Qed.
Lemma b_pack a n t b z p cm : blind (MPI_Pack c a n t b z p cm) (MPI_Pack c a n t b z p cm).
Proof.
  unfold MPI_Pack. apply b_bind; [apply b_get_type|]. intros x. apply b_bind; [apply b_handle_ptr|]. intros y s s' [E ->].
  eapply ends_bind; [apply mems_pack, E|]. intros [m q] [m' q'] [F G]. cbn in F, G. subst q'. split; [reflexivity|]. split; [exact F|reflexivity].
Qed.
Lemma b_unpack a z p b n t cm : blind (MPI_Unpack c a z p b n t cm) (MPI_Unpack c a z p b n t cm).
Proof.
  unfold MPI_Unpack. apply b_bind; [apply b_get_type|]. intros x. apply b_bind; [apply b_handle_ptr|]. intros y s s' [E ->].
  eapply ends_bind; [apply mems_unpack, E|]. intros [m q] [m' q'] [F G]. cbn in F, G. subst q'. split; [reflexivity|]. split; [exact F|reflexivity].
Qed.
Ltac go1 := match goal with
  | |- blind (get_comm _) _ => apply b_get_comm
  | |- blind (get_req _) _ => apply b_get_req
  | |- blind (upd_req _ _) _ => apply b_upd_req
  | |- blind alloc_req _ => apply b_alloc_req
  | |- blind (l_size _) _ => apply b_lsize
  | |- blind (l_data _) _ => apply b_ldata
  | |- blind (l_search _ _) _ => apply b_lsearch
  | |- blind (get_type _ _) _ => apply b_get_type
  | |- blind (copy_data2 _ _ _ _ _ _ _) _ => apply b_copy
  | _ => walk1
  end.
Ltac go := repeat (cbv beta iota zeta; go1).
Lemma b_isend b n t d g cm : blind (MPI_Isend c b n t d g cm) (MPI_Isend c b n t d g cm). Proof. unfold MPI_Isend. go. Qed.
Lemma b_irecv b n t d g cm : blind (MPI_Irecv c b n t d g cm) (MPI_Irecv c b n t d g cm). Proof. unfold MPI_Irecv. go. Qed.
Lemma b_test r st : blind (MPI_Test r st) (MPI_Test r st). Proof. unfold MPI_Test. go. Qed.
Lemma b_wait r st : blind (MPI_Wait r st) (MPI_Wait r st). Proof. unfold MPI_Wait. apply b_bind; [apply b_test|]. intros [[? ?] ?]. go. Qed.
Lemma b_send b n t d g cm : blind (MPI_Send c b n t d g cm) (MPI_Send c b n t d g cm).
Proof. unfold MPI_Send. apply b_bind; [apply b_isend|]. intros. apply b_bind; [apply b_wait|intros ?]. go. Qed.
Lemma b_iprobe so g cm st : blind (MPI_Iprobe so g cm st) (MPI_Iprobe so g cm st). Proof. unfold MPI_Iprobe. go. Qed.
Lemma b_test_at rs sts i : blind (test_at rs sts i) (test_at rs sts i).
Proof. unfold test_at. apply b_bind; [apply b_pure|]. intros. apply b_bind; [apply b_test|intros ?]. go. Qed.
Lemma b_testany n : forall i rs st, blind (testany_from n i rs st) (testany_from n i rs st).
Proof.
  induction n as [|n IH]; intros i rs st; cbn [testany_from]; [apply b_ret|].
  apply b_bind; [apply b_pure|]. intros. apply b_bind; [apply b_test|]. intros [[? ?] ?]. apply b_bind; [apply b_pure|]. intros.
  destruct (negb _); [apply b_ret|apply IH].
Qed.
Lemma b_comm_new : blind comm_new comm_new. Proof. unfold comm_new. go. Qed.
Lemma b_init : blind MPI_Init MPI_Init. Proof. unfold MPI_Init. apply b_bind; [apply b_comm_new|intros ?]. go. Qed.
Lemma b_new_type p f : blind (new_type p f) (new_type p f).
Proof.
  intros s s' [E ->]. unfold new_type. cbn [s_tjunk s_tnext set_mem]. apply ends_same. intros t. cbv zeta. apply b_write.
  split; [exact E|reflexivity].
Qed.
Lemma b_offset t ds : blind (offset_of c t ds) (offset_of c t ds).
Proof. unfold offset_of, MPI_Type_extent. go. Qed.
Ltac all1 := match goal with
  | |- blind (MPI_Isend _ _ _ _ _ _ _) _ => apply b_isend
  | |- blind (MPI_Irecv _ _ _ _ _ _ _) _ => apply b_irecv
  | |- blind (MPI_Test _ _) _ => apply b_test
  | |- blind (MPI_Wait _ _) _ => apply b_wait
  | |- blind (MPI_Send _ _ _ _ _ _ _) _ => apply b_send
  | |- blind (MPI_Iprobe _ _ _ _) _ => apply b_iprobe
  | |- blind (test_at _ _ _) _ => apply b_test_at
  | |- blind (testany_from _ _ _ _) _ => apply b_testany
  | |- blind comm_new _ => apply b_comm_new
  | |- blind MPI_Init _ => apply b_init
  | |- blind (new_type _ _) _ => apply b_new_type
  | |- blind (offset_of _ _ _) _ => apply b_offset
  | |- blind (MPI_Pack _ _ _ _ _ _ _ _) _ => apply b_pack
  | |- blind (MPI_Unpack _ _ _ _ _ _ _ _) _ => apply b_unpack
  | _ => go1
  end.
Ltac all := repeat (cbv beta iota zeta; all1).
Lemma b_coll k : blind (MPI_coll c k) (MPI_coll c k).
Proof. destruct k; cbn [MPI_coll]; unfold root_test; all. Qed.

Theorem blind_call k k' : calls R k k' -> blind (exec c k) (exec c k').
Proof.
  intros H. assert (D : (exists m m', k = KUser m /\ k' = KUser m' /\ mems R m m') \/ k = k' /\ no_store k).
  { destruct k; cbn in H; try (right; split; [exact H|exact Logic.I]). destruct k'; try discriminate H. left. eauto. }
  destruct D as [(m & m' & -> & -> & E)|[<- N]].
  - intros s s' [F ->]. split; [reflexivity|]. split; [exact E|reflexivity].
  - destruct k; try contradiction N; cbn [exec]; try apply b_mmap;
    unfold MPI_Init_thread, MPI_Comm_dup, MPI_Comm_create, MPI_Comm_split, MPI_Intercomm_create, MPI_Comm_dup, MPI_Comm_free, MPI_Irsend, MPI_Ssend,
      MPI_Rsend, MPI_Recv, MPI_Sendrecv, MPI_Testany, MPI_Waitany, MPI_Testany, MPI_Testall, MPI_Waitall, MPI_Waitsome, MPI_Testsome, MPI_Request_free,
      MPI_Probe, MPI_Finalize, MPI_Initialized, MPI_Type_create, get_types, MPI_Type_commit, MPI_Type_free, MPI_Type_size, MPI_Type_extent, MPI_Type_lb, MPI_Type_ub,
      MPI_Get_elements, MPI_Pack_size, MPI_Cart_create, MPI_Comm_dup; all; try apply b_coll.
Qed.

Lemma run_cons k r s : run c (k :: r) s =
  match exec c k s with Ok (o, s) => let (os, e) := run c r s in (o :: os, e) | e => ([], stopped e) end.
Proof. reflexivity. Qed.
Theorem blind_run : forall ks ks' s s', Forall2 (calls R) ks ks' -> states R s s' ->
  fst (run c ks s) = fst (run c ks' s') /\ ends (states R) (snd (run c ks s)) (snd (run c ks' s')).
Proof.
  intros ks ks' s s' H. revert s s'. induction H as [|k k' r r' K _ IH]; intros s s' E; [split; [reflexivity|exact E]|].
  rewrite !run_cons. pose proof (blind_call k k' K s s' E) as F.
  destruct (exec c k s) as [[o t]| | | |], (exec c k' s') as [[o' t']| | | |]; cbn in F; try contradiction F; try (split; [reflexivity|exact F]).
  destruct F as [G F]. cbn in G, F. subst o'. destruct (IH t t' F) as [I J].
  destruct (run c r t) as [os e], (run c r' t') as [os' e']. cbn in I, J |- *. split; [f_equal; exact I|exact J].
Qed.
End Cfg.
End Flow.

(** The bytes do not matter. *)
Lemma mems_refl (R : Z -> Z -> Prop) m : (forall a b, m a = Some b -> R b b) -> mems R m m.
Proof. intros H a. unfold cells. destruct (m a) eqn:E; [exact (H _ _ E)|exact Logic.I]. Qed.
Lemma no_store_calls R k : no_store k -> calls R k k.
Proof. destruct k; cbn; intros H; reflexivity || contradiction H. Qed.
Lemma no_store_all R : forall ks, Forall no_store ks -> Forall2 (calls R) ks ks.
Proof. induction 1; constructor; auto using no_store_calls. Qed.
Lemma layout_mems m m' : same_layout m m' <-> mems (fun _ _ => True) m m'.
Proof.
  unfold same_layout, mems, cells. split; intros H a; specialize (H a); destruct (m a), (m' a); try exact Logic.I; try tauto.
  - destruct H as [_ H]. discriminate (H eq_refl).
  - destruct H as [H _]. discriminate (H eq_refl).
  - split; discriminate.
Qed.
Lemma ends_mono {A B} (P Q : A -> B -> Prop) r r' : (forall x y, P x y -> Q x y) -> ends P r r' -> ends Q r r'.
Proof. intros H. destruct r, r'; cbn; auto. Qed.

Lemma C86_contents_lemma c ks s m' : Forall no_store ks -> same_layout (s_mem s) m' ->
  fst (run c ks s) = fst (run c ks (set_mem s m')) /\
  ends (fun t t' => t' = set_mem t (s_mem t') /\ same_layout (s_mem t) (s_mem t')) (snd (run c ks s)) (snd (run c ks (set_mem s m'))).
Proof.
  intros N L. destruct (blind_run (fun _ _ => True) c ks ks s (set_mem s m')) as [A B].
  - apply no_store_all, N.
  - split; [apply layout_mems, L|reflexivity].
  - split; [exact A|]. revert B. apply ends_mono. intros t t' [X Y]. split; [exact Y|apply layout_mems, X].
Qed.
Lemma recoded_calls f k : calls (fun b b' => b' = f b) k (recoded_call f k).
Proof. destruct k; try reflexivity. cbn. intros a. unfold recoded, cells. destruct (m a); reflexivity || exact Logic.I. Qed.
Lemma C86_recoding_lemma c f ks s :
  fst (run c (map (recoded_call f) ks) (set_mem s (recoded f (s_mem s)))) = fst (run c ks s) /\
  ends (fun t t' => t' = set_mem t (s_mem t') /\ forall a, s_mem t' a = recoded f (s_mem t) a)
    (snd (run c ks s)) (snd (run c (map (recoded_call f) ks) (set_mem s (recoded f (s_mem s))))).
Proof.
  destruct (blind_run (fun b b' => b' = f b) c ks (map (recoded_call f) ks) s (set_mem s (recoded f (s_mem s)))) as [A B].
  - induction ks; constructor; auto using recoded_calls.
  - split; [|reflexivity]. intros a. cbn. unfold recoded, cells. destruct (s_mem s a); reflexivity || exact Logic.I.
  - split; [symmetry; exact A|]. revert B. apply ends_mono. intros t t' [X Y]. split; [exact Y|]. intros a. specialize (X a). unfold cells, recoded in *.
    destruct (s_mem t a), (s_mem t' a); cbn; try contradiction X; congruence.
Qed.
Lemma C86_no_byte_invented_lemma c ks s t (P : Z -> Prop) : Forall no_store ks -> (forall a b, s_mem s a = Some b -> P b) ->
  snd (run c ks s) = Ok t -> forall a b, s_mem t a = Some b -> P b.
Proof.
  intros N H E. destruct (blind_run (fun b b' => P b) c ks ks s s) as [_ B].
  - apply no_store_all, N.
  - split; [apply mems_refl; exact H|destruct s; reflexivity].
  - rewrite E in B. destruct B as [B _]. intros a b F. specialize (B a). unfold cells in B. rewrite F in B. exact B.
Qed.

(** How a call can end the program through exit(). *)
From Verif Require Import Base ListModel HandleModel TypeModel CopyModel SysModel CollModel SysCalls FlowSpec ExitSpec.

(** [r] ends the program in one of the known ways, or not at all through exit. *)
Definition tame {A} (r : res A) : Prop := match r with Exit n w => In (n, w) exits | _ => True end.
Lemma tame_bind {A B} (r : res A) (f : A -> res B) : tame r -> (forall x, tame (f x)) -> tame (bind r f).
Proof. destruct r; cbn; auto. Qed.
Lemma tame_for {S} (b : Z -> S -> res S) : (forall i x, tame (b i x)) -> forall lo hi x, tame (for_loop lo hi b x).
Proof.
  intros H lo hi. unfold for_loop. generalize (Z.to_nat (hi - lo)) as n. intros n. revert lo.
  induction n as [|n IH]; intros lo x; cbn [for_from]; [exact Logic.I|]. apply tame_bind; auto.
Qed.
Lemma tame_arr {A} (l : list A) i : tame (arr_get l i). Proof. unfold arr_get. destruct (_ <? _); [exact Logic.I|]. destruct (nth_error _ _); exact Logic.I. Qed.
Ltac t1 := match goal with
  | |- tame (bind _ _) => apply tame_bind; [|intros ?]
  | |- tame (for_loop _ _ _ _) => apply tame_for; intros ? ?
  | |- tame (arr_get _ _) => apply tame_arr
  | |- tame (Ok _) => exact Logic.I
  | |- tame (UB _) => exact Logic.I
  | |- tame (Abort _) => exact Logic.I
  | |- tame Diverge => exact Logic.I
  | |- tame (Exit _ _) => cbn; tauto
  | |- tame (match ?x with _ => _ end) => destruct x
  | H : tame ?r |- tame ?r => exact H
  | H : forall _, tame _ |- tame _ => apply H
  | H : forall _ _, tame _ |- tame _ => apply H
  | H : forall _ _ _, tame _ |- tame _ => apply H
  | H : forall _ _ _ _, tame _ |- tame _ => apply H
  | |- tame (?f _) => unfold f
  | |- tame (?f _ _) => unfold f
  | |- tame (?f _ _ _) => unfold f
  | |- tame (?f _ _ _ _) => unfold f
  | |- tame (?f _ _ _ _ _) => unfold f
  | |- tame (?f _ _ _ _ _ _) => unfold f
  | |- tame (?f _ _ _ _ _ _ _) => unfold f
  | |- tame (?f _ _ _ _ _ _ _ _) => unfold f
  | |- tame (?f _ _ _ _ _ _ _ _ _) => unfold f
  end.
Ltac t := repeat (cbv beta iota zeta; t1).
Lemma tame_simple c z : tame (Simpletype_length c z).
Proof. unfold Simpletype_length. t. Qed.
Section Lists.
Variable D : Type.
Lemma tame_free_loop : forall n (cur : option Z) k (h : lheap D), tame (list_free_loop n cur k h).
Proof. induction n; intros; cbn [list_free_loop]; t. Qed.
Lemma tame_list_free l (h : lheap D) : tame (list_free l h).
Proof. unfold list_free. repeat (cbv beta iota zeta; first [apply tame_free_loop | t1]). Qed.
Lemma tame_search_loop f : (forall d : D, tame (f d)) -> forall n (cur : option Z) (h : lheap D), tame (search_loop n f cur h).
Proof. intros H. induction n; intros; cbn [search_loop]; t. Qed.
Lemma tame_list_search l f (h : lheap D) : (forall d : D, tame (f d)) -> tame (list_search_func l f h).
Proof. intros H. unfold list_search_func. repeat (cbv beta iota zeta; first [apply tame_search_loop; exact H | t1]). Qed.
Lemma tame_list_new (h : lheap D) : tame (list_new h). Proof. t. Qed.
Lemma tame_list_append l (d : D) (h : lheap D) : tame (list_append l d h). Proof. t. Qed.
Lemma tame_list_delete_item l i (h : lheap D) : tame (list_delete_item l i h). Proof. t. Qed.
Lemma tame_list_size l (h : lheap D) : tame (list_size l h). Proof. t. Qed.
Lemma tame_data i (h : lheap D) : tame (listitem_data h i). Proof. t. Qed.
End Lists.
Section Handles.
Variable D : Type.
Lemma tame_to_ptr h (tb : htab D) : tame (handle_to_ptr h tb). Proof. t. Qed.
Lemma tame_halloc tb : tame (@alloc_handle D tb). Proof. t. Qed.
Lemma tame_hfree h tb : tame (@free_handle D h tb). Proof. t. Qed.
Lemma tame_read (tb : htab D) p : tame (h_read tb p). Proof. t. Qed.
Lemma tame_write (tb : htab D) p o : tame (h_write tb p o). Proof. t. Qed.
End Handles.
Lemma tame_padding c ty : tame (calc_padding c ty). Proof. unfold calc_padding. repeat (cbv beta iota zeta; first [apply tame_simple | t1]). Qed.
Lemma tame_extent c ty : tame (Type_extent c ty). Proof. unfold Type_extent. repeat (cbv beta iota zeta; first [apply tame_padding | t1]). Qed.
Ltac u1 := first [apply tame_simple | apply tame_padding | apply tame_extent | t1].
Ltac u := repeat (cbv beta iota zeta; u1).
Lemma tame_copy c m a n ty b k v : tame (Pcopy_data2 c m a n ty b k v). Proof. unfold Pcopy_data2. u. Qed.
Lemma tame_pack c m a n ty b z p : tame (Pack c m a n ty b z p). Proof. unfold Pack. u. Qed.
Lemma tame_unpack c m a z p b n ty : tame (Unpack c m a z p b n ty). Proof. unfold Unpack. u. Qed.
Lemma tame_predefined c h : tame (predefined c h). Proof. unfold predefined. u. Qed.
Lemma tame_struct c jk n bl ds os : tame (Type_struct c jk n bl ds os). Proof. unfold Type_struct. u. Qed.
Lemma tame_size c ty : tame (Type_size c ty). Proof. unfold Type_size. u. Qed.

Definition calm {A} (e : M A) : Prop := forall s, tame (e s).
Lemma k_ret {A} (x : A) : calm (ret x). Proof. intros s. exact Logic.I. Qed.
Lemma k_pure {A} (r : res A) : tame r -> calm (pure r). Proof. intros H s. apply tame_bind; [exact H|]. intros. exact Logic.I. Qed.
Lemma k_gets {A} (f : sys -> res A) : (forall s, tame (f s)) -> calm (gets f). Proof. intros H s. apply tame_bind; [apply H|]. intros. exact Logic.I. Qed.
Lemma k_bind {A B} (e : M A) (f : A -> M B) : calm e -> (forall x, calm (f x)) -> calm (mbind e f).
Proof. intros H K s. apply tame_bind; [apply H|]. intros [x s']. apply K. Qed.
Lemma k_mmap {A B} (g : A -> B) (e : M A) : calm e -> calm (mmap g e). Proof. intros H. apply k_bind; [exact H|]. intros. apply k_ret. Qed.
Lemma k_mfor {B} n (body : Z -> B -> M B) b : (forall i x, calm (body i x)) -> calm (mfor n body b).
Proof. intros H s. unfold mfor. apply tame_for. intros i [x t]. apply H. Qed.
Ltac r1 := first [apply tame_simple | apply tame_padding | apply tame_extent | apply tame_copy | apply tame_pack | apply tame_unpack | apply tame_predefined | apply tame_struct | apply tame_size
  | apply tame_list_free | apply tame_list_search | apply tame_list_new | apply tame_list_append | apply tame_list_delete_item | apply tame_list_size | apply tame_data
  | apply tame_to_ptr | apply tame_halloc | apply tame_hfree | apply tame_read | apply tame_write | t1].
Ltac r := intros; repeat (cbv beta iota zeta; intros; r1).
Lemma k_handle_ptr h : calm (handle_ptr h). Proof. intros s. unfold handle_ptr. r. Qed.
Lemma k_release h : calm (release h). Proof. intros s. unfold release. r. Qed.
Lemma k_read p : calm (read_slot p). Proof. apply k_gets. r. Qed.
Lemma k_write p o : calm (write_slot p o). Proof. intros s. unfold write_slot. r. Qed.
Lemma k_alloc : calm alloc_slot. Proof. intros s. unfold alloc_slot. r. Qed.
Lemma k_lnew : calm l_new. Proof. intros s. unfold l_new. r. Qed.
Lemma k_lfree l : calm (l_free l). Proof. intros s. unfold l_free. r. Qed.
Lemma k_lappend l p : calm (l_append l p). Proof. intros s. unfold l_append. r. Qed.
Lemma k_ldelete l p : calm (l_delete l p). Proof. intros s. unfold l_delete. r. Qed.
Lemma k_lsize l : calm (l_size l). Proof. apply k_gets. r. Qed.
Lemma k_ldata l : calm (l_data l). Proof. apply k_gets. r. Qed.
Lemma k_lsearch l f : calm (l_search l f). Proof. apply k_gets. r. Qed.
Ltac w1 := match goal with
  | |- calm (ret _) => apply k_ret
  | |- calm (pure _) => apply k_pure; r
  | |- calm (handle_ptr _) => apply k_handle_ptr
  | |- calm (release _) => apply k_release
  | |- calm (read_slot _) => apply k_read
  | |- calm (write_slot _ _) => apply k_write
  | |- calm alloc_slot => apply k_alloc
  | |- calm l_new => apply k_lnew
  | |- calm (l_free _) => apply k_lfree
  | |- calm (l_append _ _) => apply k_lappend
  | |- calm (l_delete _ _) => apply k_ldelete
  | |- calm (l_size _) => apply k_lsize
  | |- calm (l_data _) => apply k_ldata
  | |- calm (l_search _ _) => apply k_lsearch
  | |- calm (gets _) => apply k_gets; r
  | |- calm (mmap _ _) => apply k_mmap
  | |- calm (mbind _ _) => apply k_bind; [|intros ?]
  | |- calm (mfor _ _ _) => apply k_mfor; intros ? ?
  | |- calm (match ?x with _ => _ end) => destruct x
  | H : forall _, calm _ |- calm _ => apply H
  | H : forall _ _ _, calm _ |- calm _ => apply H
  | |- calm (fun s => _) => intros ?; r
  | |- calm ?f => unfold f
  | |- calm (?f _) => unfold f
  | |- calm (?f _ _) => unfold f
  | |- calm (?f _ _ _) => unfold f
  | |- calm (?f _ _ _ _) => unfold f
  | |- calm (?f _ _ _ _ _) => unfold f
  | |- calm (?f _ _ _ _ _ _) => unfold f
  | |- calm (?f _ _ _ _ _ _ _) => unfold f
  | |- calm (?f _ _ _ _ _ _ _ _) => unfold f
  end.
Ltac w := repeat (cbv beta iota zeta; w1).
Section Cfg.
Variable c : cfg.
Lemma k_get_type h : calm (get_type c h). Proof. w. Qed.
Lemma k_copy a n t0 b k v : calm (copy_data2 c a n t0 b k v).
Proof. unfold copy_data2. apply k_bind; [apply k_get_type|intros ?]. apply k_bind; [apply k_get_type|intros ?]. w. Qed.
Ltac g1 := first [apply k_get_type | apply k_copy | w1].
Ltac g := repeat (cbv beta iota zeta; g1).
Lemma k_isend b n ty d tg cm : calm (MPI_Isend c b n ty d tg cm). Proof. g. Qed.
Lemma k_irecv b n ty d tg cm : calm (MPI_Irecv c b n ty d tg cm). Proof. g. Qed.
Lemma k_test q st : calm (MPI_Test q st). Proof. g. Qed.
Ltac h1 := first [apply k_isend | apply k_irecv | apply k_test | g1].
Ltac h := repeat (cbv beta iota zeta; h1).
Lemma k_wait q st : calm (MPI_Wait q st). Proof. h. Qed.
Lemma k_testany n : forall i rs st, calm (testany_from n i rs st).
Proof. induction n; intros; cbn [testany_from]; h. Qed.
Lemma k_comm_new : calm comm_new. Proof. h. Qed.
Lemma k_new_type p f : (forall j, tame (f j)) -> calm (new_type p f).
Proof. intros H s. unfold new_type. apply tame_bind; [apply H|]. intros x. cbv zeta. apply k_write. Qed.
Ltac e1 := first [apply k_wait | apply k_testany | apply k_comm_new | apply k_new_type; r | h1].
Ltac e := repeat (cbv beta iota zeta; e1).
Lemma k_types n hs : calm (get_types c n hs). Proof. unfold get_types. e. Qed.
Lemma k_type_create k : calm (MPI_Type_create c k).
Proof. unfold MPI_Type_create. destruct k; repeat (cbv beta iota zeta; first [apply k_types|e1]). Qed.
Lemma k_coll k : calm (MPI_coll c k).
Proof. destruct k; cbn [MPI_coll]; unfold root_test; e. Qed.
Theorem calm_call k : calm (exec c k).
Proof. destruct k; cbn [exec]; try apply k_mmap; try apply k_coll; try apply k_type_create; try unfold MPI_Sendrecv; e. Qed.
End Cfg.
Lemma exits_seen n w : In (n, w) exits -> n = 1 \/ n = -1.
Proof. intros H. unfold exits in H. cbn [In] in H. repeat (destruct H as [H|H]; [injection H as <- _; auto|]). destruct H. Qed.
Theorem C95_exit_lemma c k s n w : exec c k s = Exit n w -> In (n, w) exits /\ status_seen n <> 0.
Proof.
  intros E. assert (H := calm_call c k s). rewrite E in H. cbn in H. split; [exact H|].
  destruct (exits_seen n w H) as [->| ->]; vm_compute; discriminate.
Qed.
Theorem C95_run_lemma c : forall ks s n w, snd (run c ks s) = Exit n w -> In (n, w) exits /\ status_seen n <> 0.
Proof.
  induction ks as [|k r IH]; intros s n w; cbn [run]; [discriminate|].
  destruct (exec c k s) as [[o t]| | | |] eqn:E; cbn [snd stopped]; try discriminate.
  - specialize (IH t n w). destruct (run c r t). exact IH.
  - intros X. injection X as -> ->. apply (C95_exit_lemma c k s). exact E.
Qed.
Theorem C95_abort_lemma comm code s : MPI_Abort comm code s = Exit code "MPI_Abort" /\ (status_seen code <> 0 <-> ~ (256 | code)).
Proof.
  split; [reflexivity|]. unfold status_seen. rewrite <- Z.mod_divide by lia. tauto.
Qed.

(** Proofs for C118 and C119. *)
From Verif Require Import Base HeaderModel LinkModel NameModel TextModel TextSpec.
From Coq Require Import Ascii.

(** Evaluating a reading once. *)
Definition the {A} (d : A) (o : option A) : A := match o with Some x => x | None => d end.
Definition f_l : list stmt := Eval vm_compute in the [] (free text_mpif_h).
Lemma f_eq : free text_mpif_h = Some f_l.
Proof. vm_compute. reflexivity. Qed.
Definition f_h : header := Eval vm_compute in the start (meaning start f_l).
Lemma f_meaning : meaning start f_l = Some f_h.
Proof. vm_compute. reflexivity. Qed.
Lemma f_is : forall l h, free text_mpif_h = Some l -> meaning start l = Some h -> h = f_h.
Proof. intros l h E M. rewrite f_eq in E. injection E as <-. rewrite f_meaning in M. injection M as <-. reflexivity. Qed.
Definition m_c : c_header := Eval vm_compute in the (mkC ""%string [] [] []) (read_c true text_mpi_h).
Lemma m_eq : read_c true text_mpi_h = Some m_c.
Proof. vm_compute. reflexivity. Qed.
Lemma m_is : forall h, read_c true text_mpi_h = Some h -> h = m_c.
Proof. intros h E. rewrite m_eq in E. injection E as <-. reflexivity. Qed.

Lemma C118_free_lemma :
  exists l h, free text_mpif_h = Some l /\ meaning start l = Some h /\ integers_of h = HeaderModel.mpif_h /\
    kinds_of h = [("MPI_OFFSET_KIND", 13)]%string /\ h_others h = ["MPI_WTIME"]%string /\
    h_common h = [("MPISERIAL", ["MPI_STATUS_IGNORE"; "MPI_STATUSES_IGNORE"; "MPI_IN_PLACE"])]%string /\ h_saved h = ["MPISERIAL"]%string.
Proof.
  exists f_l, f_h. split; [exact f_eq|]. split; [exact f_meaning|].
  do 4 (split; [vm_compute; reflexivity|]). vm_compute. reflexivity.
Qed.

(** What a header that has a meaning is like, whatever its statements. *)
Lemma listed_In : forall n l, listed n l = true <-> In n l.
Proof.
  intros n l. unfold listed. rewrite existsb_exists. split.
  - intros [x [I E]]. apply String.eqb_eq in E. subst. exact I.
  - intros I. exists n. split; [exact I|apply String.eqb_refl].
Qed.
Lemma find_In : forall A n (l : list (string * A)) a, TextSpec.find n l = Some a -> In (n, a) l.
Proof.
  induction l as [|[m b] l IH]; cbn; intros a E; [discriminate|].
  destruct (String.eqb n m) eqn:Q; [apply String.eqb_eq in Q; injection E as <-; subst; left; reflexivity|right; auto].
Qed.
Lemma find_None : forall A n (l : list (string * A)), TextSpec.find n l = None -> ~ In n (map fst l).
Proof.
  induction l as [|[m b] l IH]; cbn; intros E I; [exact I|].
  destruct (String.eqb n m) eqn:Q; [discriminate E|]. apply String.eqb_neq in Q. destruct I as [I|I]; [congruence|exact (IH E I)].
Qed.
Lemma NoDup_mid : forall (A : Type) (l r : list A) n, NoDup (l ++ r) -> ~ In n (l ++ r) -> NoDup ((l ++ [n]) ++ r).
Proof.
  intros A l r n N I. rewrite <- app_assoc. cbn [app]. apply NoDup_Add with (a := n) (l := (l ++ r)%list); [apply Add_app|split; assumption].
Qed.
Lemma NoDup_end : forall (A : Type) (l : list A) n, NoDup l -> ~ In n l -> NoDup (l ++ [n]).
Proof.
  intros A l n N I. replace (l ++ [n])%list with ((l ++ [n]) ++ [])%list by (rewrite app_nil_r; reflexivity).
  apply NoDup_mid; rewrite app_nil_r; assumption.
Qed.
Lemma untyped_not : forall h n, untyped h n = true -> ~ In n (map fst (h_integers h) ++ h_others h).
Proof.
  intros h n U I. unfold untyped in U. apply andb_true_iff in U. destruct U as [_ U]. apply negb_true_iff in U.
  apply (proj2 (listed_In _ _)) in I. rewrite I in U. discriminate U.
Qed.
Lemma declare_sound : forall l h h', declare h l = Some h' -> sound h -> sound h'.
Proof.
  induction l as [|[n b] l IH]; cbn [declare]; intros h h' E H; [injection E as <-; exact H|].
  destruct (untyped h n) eqn:U; cbn [andb] in E; [|discriminate E]. destruct (bounds_ok h b); [|discriminate E].
  apply IH in E; [exact E|]. apply untyped_not in U. destruct H as (A & B & C & D). unfold sound; cbn [h_integers h_others h_values h_common].
  split; [rewrite map_app; cbn [map fst]; apply NoDup_mid; assumption|]. split; [exact B|].
  split.
  - intros m v I. apply in_or_app. left. exact (C m v I).
  - intros c ns m I J. destruct (D c ns m I J) as [P Q]. split; [rewrite map_app; apply in_or_app; left; exact P|exact Q].
Qed.
Lemma in_common_not : forall h n, in_common h n = false -> forall b ns, In (b, ns) (h_common h) -> ~ In n ns.
Proof.
  intros h n E b ns I J. unfold in_common in E.
  assert (T : existsb (fun b => listed n (snd b)) (h_common h) = true).
  { apply existsb_exists. exists (b, ns). split; [exact I|]. apply listed_In. exact J. }
  rewrite T in E. discriminate E.
Qed.
Lemma define_sound : forall l h h', define h l = Some h' -> sound h -> sound h'.
Proof.
  induction l as [|[n e] l IH]; cbn [define]; intros h h' E H; [injection E as <-; exact H|].
  destruct (TextSpec.find n (h_integers h)) as [[|]|] eqn:FI; try discriminate E.
  destruct (TextSpec.find n (h_values h)) eqn:FV; [discriminate E|].
  destruct (value_of h e) as [v|]; [|discriminate E]. destruct (in_common h n) eqn:IC; [discriminate E|].
  apply IH in E; [exact E|]. apply find_In in FI. apply find_None in FV. destruct H as (A & B & C & D).
  unfold sound; cbn [h_integers h_others h_values h_common].
  split; [exact A|]. split; [rewrite map_app; cbn [map fst]; apply NoDup_end; assumption|].
  split.
  - intros m w I. apply in_app_or in I. destruct I as [I|[I|[]]]; [exact (C m w I)|]. injection I as <- <-. exact FI.
  - intros c ns m I J. destruct (D c ns m I J) as [P Q]. split; [exact P|]. rewrite map_app. intros K. apply in_app_or in K.
    destruct K as [K|[K|[]]]; [exact (Q K)|]. cbn [fst] in K. subst m. exact (in_common_not h n IC c ns I J).
Qed.
Lemma put_common_In : forall b m l c ns n, In (c, ns) (put_common b [m] l) -> In n ns -> n = m \/ exists c' ns', In (c', ns') l /\ In n ns'.
Proof.
  induction l as [|[c0 ms] l IH]; cbn; intros c ns n I J.
  - destruct I as [I|[]]. injection I as <- <-. destruct J as [J|[]]. left. symmetry. exact J.
  - destruct (String.eqb b c0).
    + destruct I as [I|I].
      * injection I as <- <-. apply in_app_or in J. destruct J as [J|[J|[]]]; [right; exists c0, ms; split; [left; reflexivity|exact J]|left; symmetry; exact J].
      * right. exists c, ns. split; [right; exact I|exact J].
    + destruct I as [I|I].
      * injection I as <- <-. right. exists c0, ms. split; [left; reflexivity|exact J].
      * destruct (IH c ns n I J) as [Q|[c' [ns' [P Q]]]]; [left; exact Q|right; exists c', ns'; split; [right; exact P|exact Q]].
Qed.
Lemma share_sound : forall b l h h', share h b l = Some h' -> sound h -> sound h'.
Proof.
  induction l as [|n l IH]; cbn [share]; intros h h' E H; [injection E as <-; exact H|].
  destruct (TextSpec.find n (h_integers h)) as [t|] eqn:FI; [|discriminate E].
  destruct (TextSpec.find n (h_values h)) eqn:FV; [discriminate E|]. destruct (in_common h n); [discriminate E|].
  apply IH in E; [exact E|]. apply find_In in FI. apply find_None in FV. destruct H as (A & B & C & D).
  unfold sound; cbn [h_integers h_others h_values h_common]. split; [exact A|]. split; [exact B|]. split; [exact C|].
  intros c ns m I J. destruct (put_common_In _ _ _ _ _ _ I J) as [->|[c' [ns' [P Q]]]].
  - split; [exact (in_map fst _ _ FI)|exact FV].
  - exact (D c' ns' m P Q).
Qed.
Lemma step_sound : forall h s h', step h s = Some h' -> sound h -> sound h'.
Proof.
  intros h s h' E H. destruct s; cbn [step] in E.
  - exact (declare_sound _ _ _ E H).
  - destruct (untyped h name) eqn:U; [|discriminate E]. injection E as <-. apply untyped_not in U. destruct H as (A & B & C & D).
    unfold sound; cbn [h_integers h_others h_values h_common]. split; [|split; [exact B|split; [exact C|exact D]]].
    rewrite app_assoc. apply NoDup_end; assumption.
  - destruct (listed name (h_others h)); [injection E as <-; exact H|discriminate E].
  - exact (define_sound _ _ _ E H).
  - exact (share_sound _ _ _ _ E H).
  - destruct (listed block (map fst (h_common h))); [injection E as <-; exact H|discriminate E].
Qed.
Lemma C118_meaning_lemma : forall l h, meaning start l = Some h -> sound h.
Proof.
  assert (G : forall l h h', meaning h l = Some h' -> sound h -> sound h').
  { induction l as [|s l IH]; cbn [meaning]; intros h h' E H; [injection E as <-; exact H|].
    destruct (step h s) as [h1|] eqn:Q; [|discriminate E]. exact (IH _ _ E (step_sound _ _ _ Q H)). }
  intros l h E. apply (G _ _ _ E). unfold sound, start; cbn. repeat split; try constructor; intros; contradiction.
Qed.

(** Fixed form. *)
Lemma join_wrong : forall l o, In Wrong l -> join o l = None.
Proof.
  induction l as [|k l IH]; cbn [join]; intros o I; [destruct I|].
  destruct k.
  - destruct I as [I|I]; [discriminate I|exact (IH o I)].
  - destruct I as [I|I]; [discriminate I|]. rewrite (IH _ I). reflexivity.
  - destruct I as [I|I]; [discriminate I|]. destruct o; [exact (IH _ I)|reflexivity].
  - reflexivity.
Qed.
Definition refused (s : string) : bool := match free_line s with Some (_ :: _) => match fixed_line s with Wrong => true | _ => false end | _ => true end.
Lemma C118_lines_lemma : forall s t ts, In s text_mpif_h -> free_line s = Some (t :: ts) -> fixed_line s = Wrong.
Proof.
  intros s t ts I E.
  assert (A : forallb refused text_mpif_h = true) by (vm_compute; reflexivity).
  rewrite forallb_forall in A. specialize (A s I). unfold refused in A. rewrite E in A. destruct (fixed_line s); try discriminate A. reflexivity.
Qed.
Lemma C118_fixed_lemma : forall before after, fixed (before ++ text_mpif_h ++ after) = None.
Proof.
  intros b a. unfold fixed. rewrite join_wrong; [reflexivity|].
  rewrite !map_app. apply in_or_app. right. apply in_or_app. left.
  assert (E : existsb (fun k => match k with Wrong => true | _ => false end) (map fixed_line text_mpif_h) = true) by (vm_compute; reflexivity).
  apply existsb_exists in E. destruct E as [k [I Q]]. destruct k; try discriminate Q. exact I.
Qed.
Definition words_in (text : list string) : list (option (list tok)) := map free_line text.
Lemma C118_kind_lemma :
  (exists s ts, In s text_mpif_F90 /\ free_line s = Some ts /\ In (W "MPI_ADDRESS_KIND") ts) /\
  forall s ts, In s text_mpif_h -> free_line s = Some ts -> ~ In (W "MPI_ADDRESS_KIND") ts.
Proof.
  split.
  - exists (nth 7 text_mpif_F90 ""%string). eexists. split; [vm_compute; tauto|]. split; [vm_compute; reflexivity|]. cbn [In]. tauto.
  - intros s ts I E J.
    assert (A : forallb (fun s => match free_line s with Some ts => negb (existsb (is_word "MPI_ADDRESS_KIND") ts) | None => true end) text_mpif_h = true) by (vm_compute; reflexivity).
    rewrite forallb_forall in A. specialize (A s I). cbv beta in A. rewrite E in A. apply negb_true_iff in A.
    assert (T : existsb (is_word "MPI_ADDRESS_KIND") ts = true) by (apply existsb_exists; exists (W "MPI_ADDRESS_KIND"); split; [exact J|reflexivity]).
    rewrite T in A. discriminate A.
Qed.

(** mpi.h. *)
Definition same_set (a b : list (string * Z)) : bool :=
  (forallb (fun x => existsb (fun y => String.eqb (fst x) (fst y) && Z.eqb (snd x) (snd y)) b) a &&
   forallb (fun x => existsb (fun y => String.eqb (fst x) (fst y) && Z.eqb (snd x) (snd y)) a) b)%bool.
Lemma same_set_In : forall a b, same_set a b = true -> forall n v, In (n, v) a <-> In (n, v) b.
Proof.
  assert (G : forall a b : list (string * Z), forallb (fun x => existsb (fun y => String.eqb (fst x) (fst y) && Z.eqb (snd x) (snd y)) b) a = true -> forall n v, In (n, v) a -> In (n, v) b).
  { intros a b E n v I. rewrite forallb_forall in E. specialize (E _ I). apply existsb_exists in E. destruct E as [[m w] [J Q]].
    apply andb_true_iff in Q. destruct Q as [Q1 Q2]. apply String.eqb_eq in Q1. apply Z.eqb_eq in Q2. cbn in Q1, Q2. subst. exact J. }
  intros a b E n v. apply andb_true_iff in E. destruct E as [E1 E2]. split; [exact (G _ _ E1 n v)|exact (G _ _ E2 n v)].
Qed.
Fixpoint once (l : list string) : bool := match l with [] => true | x :: r => (negb (listed x r) && once r)%bool end.
Lemma once_NoDup : forall l, once l = true -> NoDup l.
Proof.
  induction l as [|x l IH]; cbn [once]; intros E; constructor.
  - apply andb_true_iff in E. destruct E as [E _]. apply negb_true_iff in E. intros I. apply (proj2 (listed_In _ _)) in I. rewrite I in E. discriminate E.
  - apply andb_true_iff in E. exact (IH (proj2 E)).
Qed.
Lemma C119_reads_lemma :
  exists h, read_c true text_mpi_h = Some h /\ c_guard h = "_MPI_H_"%string /\
    (forall n v, In (n, v) (numbers_of h) <-> In (n, v) HeaderModel.mpi_h) /\
    pointers_of h = [("MPI_IN_PLACE", "void", -1); ("MPI_STATUS_IGNORE", "MPI_Status", 0); ("MPI_STATUSES_IGNORE", "MPI_Status", 0)]%string /\
    routines_of h = map (fun d => (symbol SAME (d_name d), d_ret d, d_params d)) (filter (fun d => String.eqb (d_file d) "mpi.h") declarations) /\
    incl typedefs (aliases_of h) /\
    NoDup (map fst (c_macros h) ++ map decl_name (c_decls h)).
Proof.
  exists m_c. split; [exact m_eq|]. split; [vm_compute; reflexivity|].
  split; [apply same_set_In; vm_compute; reflexivity|].
  split; [vm_compute; reflexivity|]. split; [vm_compute; reflexivity|].
  split.
  - assert (A : forallb (fun x => existsb (fun y => (String.eqb (fst x) (fst y) && String.eqb (snd x) (snd y))%bool) (aliases_of m_c)) typedefs = true) by (vm_compute; reflexivity).
    intros [n b] I. rewrite forallb_forall in A. specialize (A _ I). apply existsb_exists in A. destruct A as [[m c] [J Q]].
    apply andb_true_iff in Q. destruct Q as [Q1 Q2]. apply String.eqb_eq in Q1. apply String.eqb_eq in Q2. cbn [fst snd] in Q1, Q2. subst m c. exact J.
  - apply once_NoDup. vm_compute. reflexivity.
Qed.
Lemma C119_names_lemma : forall h, read_c true text_mpi_h = Some h ->
  map fst (c_macros h) = flat_map (fun r => match r_item r with Macro n _ => [n] | _ => [] end) t_mpi_h /\
  map decl_name (filter (fun d => match d with Routine _ _ _ => false | _ => true end) (c_decls h)) =
  flat_map (fun r => match r_item r with Def n => if String.prefix "." n then [] else [n] | _ => [] end) t_mpi_h.
Proof. intros h E. rewrite (m_is h E). split; vm_compute; reflexivity. Qed.

(** The macros and the members. *)
Lemma C119_status_lemma : forall h l hf, read_c true text_mpi_h = Some h -> free text_mpif_h = Some l -> meaning start l = Some hf ->
  In ("MPI_STATUS_SIZE"%string, Z.of_nat (length (members_of h "MPI_Status"))) (integers_of hf) /\
  (forall n t, In (n, t) (members_of h "MPI_Status") -> t = ("int"%string, 0%nat) \/ t = ("MPI_Status_int"%string, 0%nat) /\ In ("MPI_Status_int"%string, "int"%string) (aliases_of h)) /\
  forall n, In n ["MPI_SOURCE"; "MPI_TAG"; "MPI_ERROR"]%string ->
    exists i t, nth_error (members_of h "MPI_Status") i = Some (n, t) /\ In (n, Z.of_nat i + 1) (integers_of hf).
Proof.
  intros h l hf E F M. rewrite (m_is h E), (f_is l hf F M). clear.
  split; [|split].
  - apply find_In. vm_compute. reflexivity.
  - intros n t I. change (members_of m_c "MPI_Status") with [("MPI_SOURCE", ("MPI_Status_int", 0%nat)); ("MPI_TAG", ("MPI_Status_int", 0%nat)); ("MPI_ERROR", ("MPI_Status_int", 0%nat)); ("get_count", ("int", 0%nat))]%string in I.
    assert (A : In ("MPI_Status_int"%string, "int"%string) (aliases_of m_c)) by (apply find_In; vm_compute; reflexivity).
    cbn [In] in I. destruct I as [I|[I|[I|[I|[]]]]]; injection I as <- <-; auto.
  - intros n I. destruct I as [<-|[<-|[<-|[]]]].
    + exists 0%nat, ("MPI_Status_int"%string, 0%nat). split; [vm_compute; reflexivity|apply find_In; vm_compute; reflexivity].
    + exists 1%nat, ("MPI_Status_int"%string, 0%nat). split; [vm_compute; reflexivity|apply find_In; vm_compute; reflexivity].
    + exists 2%nat, ("MPI_Status_int"%string, 0%nat). split; [vm_compute; reflexivity|apply find_In; vm_compute; reflexivity].
Qed.
Lemma C119_agree_lemma : forall h l hf, read_c true text_mpi_h = Some h -> free text_mpif_h = Some l -> meaning start l = Some hf ->
  forall n v w, In (n, v) (numbers_of h) -> In (n, w) (integers_of hf) -> v = w.
Proof.
  intros h l hf E F M n v w I J. rewrite (m_is h E) in I. rewrite (f_is l hf F M) in J.
  assert (A : forallb (fun x => forallb (fun y => (negb (String.eqb (fst x) (fst y)) || Z.eqb (snd x) (snd y))%bool) (integers_of f_h)) (numbers_of m_c) = true) by (vm_compute; reflexivity).
  rewrite forallb_forall in A. specialize (A _ I). cbv beta in A. rewrite forallb_forall in A. specialize (A _ J). cbn [fst snd] in A.
  rewrite String.eqb_refl in A. cbn [negb orb] in A. apply Z.eqb_eq. exact A.
Qed.
Lemma C119_operands_lemma : forall h n body, read_c true text_mpi_h = Some h -> In (n, body) (c_macros h) -> (one_operand body = false <-> n = "MPI_IN_PLACE"%string).
Proof.
  intros h n body E I. rewrite (m_is h E) in I.
  assert (A : forallb (fun x => Bool.eqb (one_operand (snd x)) (negb (String.eqb (fst x) "MPI_IN_PLACE"))) (c_macros m_c) = true) by (vm_compute; reflexivity).
  rewrite forallb_forall in A. specialize (A _ I). cbn [fst snd] in A. apply Bool.eqb_prop in A. rewrite A. rewrite negb_false_iff. apply String.eqb_eq.
Qed.
Lemma C119_c90_lemma : read_c false text_mpi_h = None.
Proof. vm_compute. reflexivity. Qed.

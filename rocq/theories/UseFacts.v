(** Proofs for C107: finite checks of the tables. *)
From Verif Require Import Base LinkModel LinkSpec LinkFacts UseSpec.
From Coq Require Import Relations.
#[local] Open Scope nat_scope.
#[local] Open Scope string_scope.
#[local] Open Scope list_scope.

Section Uses.
Variables (m : mangling) (lib : list fn) (ws : list string).
Notation succs := (succs m lib).
Definition usesb (f : fn) : bool := existsb (fun n => match n with C s => existsb (String.eqb s) ws | F _ _ => false end) (fn_calls f).
(** At most [k] routines deep; [b]: what to say of deeper ones. *)
Fixpoint leads (b : bool) (k : nat) (f : fn) : bool :=
  match k with O => b | S k => usesb f || existsb (leads b k) (succs f) end.
Lemma usesb_spec f : usesb f = true <-> exists s, In s ws /\ In (C s) (fn_calls f).
Proof.
  unfold usesb. rewrite existsb_exists. split.
  - intros [n [I E]]. destruct n as [s|]; [|discriminate]. apply existsb_exists in E. destruct E as [x [A B]]. apply String.eqb_eq in B. subst x. eauto.
  - intros [s [A B]]. exists (C s). split; [exact B|]. apply existsb_exists. exists s. split; [exact A|apply String.eqb_refl].
Qed.
Lemma leads_not k : forall f, leads true k f = false -> forall s, In s ws -> ~ may_use m lib f s.
Proof.
  induction k as [|k IH]; intros f H s W; [discriminate|]. simpl in H. apply orb_false_iff in H. destruct H as [H1 H2]. intros [g [R S]].
  apply clos_rt_rt1n_iff in R. destruct R as [|h g R1 R2].
  - assert (X : usesb f = true) by (apply usesb_spec; eauto). rewrite X in H1. discriminate.
  - assert (X : leads true k h = false).
    { destruct (leads true k h) eqn:E; [|reflexivity]. rewrite <- H2. symmetry. apply existsb_exists. exists h. split; [now apply calls_succs|exact E]. }
    apply (IH h X s W). exists g. split; [now apply clos_rt_rt1n_iff|exact S].
Qed.
Lemma leads_to k : forall f, In f lib -> leads false k f = true -> exists s, In s ws /\ may_use m lib f s.
Proof.
  induction k as [|k IH]; intros f If H; [discriminate|]. simpl in H. apply orb_true_iff in H. destruct H as [H|H].
  - apply usesb_spec in H. destruct H as [s [A B]]. exists s. split; [exact A|]. exists f. split; [apply rt_refl|exact B].
  - apply existsb_exists in H. destruct H as [h [I E]]. pose proof (succs_calls _ _ _ _ If I) as K. destruct (IH h (proj2 (calls_in _ _ _ _ K)) E) as [s [A [g [R S]]]].
    exists s. split; [exact A|]. exists g. split; [|exact S]. apply rt_trans with h; [now apply rt_step|exact R].
Qed.
End Uses.

Definition listed (s : string) (l : list string) : bool := existsb (String.eqb s) l.
Lemma listed_in s l : listed s l = true <-> In s l.
Proof.
  unfold listed. rewrite existsb_exists. split; [intros [x [A B]]; apply String.eqb_eq in B; now subst x|].
  intros I. exists s. split; [exact I|apply String.eqb_refl].
Qed.
Definition can_check (m : mangling) (ws l : list string) : bool :=
  forallb (fun f => match fn_name f with
    | C s => negb (String.prefix "MPI_" s) || (let b := listed s l in Bool.eqb b (leads m library ws true 9 f) && Bool.eqb b (leads m library ws false 9 f))
    | F _ _ => true end) library.
Lemma can_spec m ws l : can_check m ws l = true -> forall f s, In f library -> fn_name f = C s -> String.prefix "MPI_" s = true ->
  (exists w, In w ws /\ may_use m library f w) <-> In s l.
Proof.
  intros H f s I E P. unfold can_check in H. rewrite forallb_forall in H. specialize (H f I). rewrite E, P in H. change (negb true) with false in H. rewrite orb_false_l in H.
  cbv zeta in H. apply andb_true_iff in H. destruct H as [H K]. apply eqb_prop in H, K. rewrite <- listed_in. destruct (listed s l).
  - split; [reflexivity|]. intros _. symmetry in K. exact (leads_to m library ws 9 f I K).
  - split; [|discriminate]. intros [w [W U]]. symmetry in H. destruct (leads_not m library ws 9 f H w W U).
Qed.
Lemma one m f w : (exists s, In s [w] /\ may_use m library f s) <-> may_use m library f w.
Proof. split; [intros [s [[<-|[]] U]]; exact U|]. intros U. exists w. split; [left; reflexivity|exact U]. Qed.

Lemma C107_can_lemma : forall m f s, In f library -> fn_name f = C s -> String.prefix "MPI_" s = true ->
  (may_use m library f "mpi_alloc_handle" <-> In s making) /\
  (may_use m library f "malloc" <-> In s making) /\
  (may_use m library f "mpi_free_handle" <-> In s ending) /\
  (may_use m library f "free" <-> In s releasing) /\
  (may_use m library f "memcpy" <-> In s copying) /\
  (may_use m library f "printf" \/ may_use m library f "fprintf" \/ may_use m library f "perror" <-> In s writing).
Proof.
  intros m.
  assert (H : can_check m ["mpi_alloc_handle"] making && can_check m ["malloc"] making && can_check m ["mpi_free_handle"] ending && can_check m ["free"] releasing &&
              can_check m ["memcpy"] copying && can_check m ["printf"; "fprintf"; "perror"] writing = true) by (destruct m; vm_compute; reflexivity).
  rewrite !andb_true_iff in H. destruct H as [[[[[H1 H2] H3] H4] H5] H6]. intros f s I E P.
  pose proof (can_spec _ _ _ H1 f s I E P) as X1. pose proof (can_spec _ _ _ H2 f s I E P) as X2. pose proof (can_spec _ _ _ H3 f s I E P) as X3.
  pose proof (can_spec _ _ _ H4 f s I E P) as X4. pose proof (can_spec _ _ _ H5 f s I E P) as X5. pose proof (can_spec _ _ _ H6 f s I E P) as X6.
  rewrite one in X1, X2, X3, X4, X5. clear H1 H2 H3 H4 H5 H6.
  split; [exact X1|]. split; [exact X2|]. split; [exact X3|]. split; [exact X4|]. split; [exact X5|]. rewrite <- X6. split.
  - intros [U|[U|U]]; [exists "printf"|exists "fprintf"|exists "perror"]; (split; [cbn [In]; auto|exact U]).
  - intros [w [[<-|[<-|[<-|[]]]] U]]; auto.
Qed.

(** Direct calls. *)
Definition directb (p : nm * list string) : bool :=
  forallb (fun f => Bool.eqb (existsb (nmb (fst p)) (fn_calls f)) (listed (text_of (fn_name f)) (snd p))) library.
Lemma nmb_refl n : nmb n n = true.
Proof. destruct n; unfold nmb; rewrite ?String.eqb_refl; reflexivity. Qed.
Lemma nmb_iff n l : existsb (nmb n) l = true <-> In n l.
Proof. split; [apply nmb_in|]. intros I. apply existsb_exists. exists n. split; [exact I|apply nmb_refl]. Qed.
Lemma C107_direct_lemma :
  (forall n l, In (n, l) callers -> forall f, In f library -> In n (fn_calls f) <-> In (text_of (fn_name f)) l) /\
  (forall f n, In f library -> In n (fn_calls f) -> exists l, In (n, l) callers) /\
  NoDup (map fst callers).
Proof.
  split; [|split].
  - assert (H : forallb directb callers = true) by (vm_compute; reflexivity). intros n l I f J. rewrite forallb_forall in H. specialize (H _ I).
    unfold directb in H. rewrite forallb_forall in H. specialize (H f J). apply eqb_prop in H. cbn [fst snd] in H. rewrite <- nmb_iff, <- listed_in, H. reflexivity.
  - assert (H : forallb (fun f => forallb (fun n => existsb (fun p => nmb n (fst p)) callers) (fn_calls f)) library = true) by (vm_compute; reflexivity).
    intros f n I J. rewrite forallb_forall in H. specialize (H f I). rewrite forallb_forall in H. specialize (H n J). apply existsb_exists in H.
    destruct H as [[k l] [A B]]. apply nmb_spec in B. cbn [fst] in B. subst k. eauto.
  - assert (H : (fix nd (l : list nm) : bool := match l with [] => true | x :: l => negb (existsb (nmb x) l) && nd l end) (map fst callers) = true) by (vm_compute; reflexivity).
    revert H. generalize (map fst callers). induction l as [|x l IH]; intros H; [constructor|]. apply andb_true_iff in H. destruct H as [H K]. constructor; [|auto].
    intros I. apply nmb_iff in I. rewrite I in H. discriminate H.
Qed.
